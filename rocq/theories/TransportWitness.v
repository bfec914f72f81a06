(* TransportWitness.v -- concrete packages and counterexamples for
   PropertiesTransport.v *)
From Verif Require Import Base BaseLemmas HeaderModel HeaderSpec HeaderWitness CodecProofs PartProofs CrcModel HashModel MerkleModel MerkleSpec MerkleApi VerifyModel VerifySpec
  PkgSpec PkgProofs BspatchModel BsdiffModel HsModel HsPatchModel LzModel LzSpec LzWitness
  TransportModel TransportSpec TransportFile TransportLay TransportMain.

Definition tw_metas : list metah :=
  [ mkMeta 0xfb2f1f3f 16 0 0 (zeros 4);            (* package uuid *)
    mkMeta 0x2d44bbfb 8 16 300 (zeros 4);          (* transport settings *)
    mkMeta 0x2d44bbfb 8 24 400 (zeros 4);
    mkMeta 0x2d44bbfb 8 32 (part_id_to_hash_tree_id 100) (zeros 4);
    mkMeta 0x7c9b2f93 32 40 100 (zeros 4);         (* salt of part 100's tree *)
    mkMeta 0x2d44bbfb 8 72 600 (zeros 4) ].
Definition tw_salt : bytes := repeat 3 32.
Definition tw_uuid : bytes := [1;2;3;4;5;6;7;8;9;10;11;12;13;14;15;16].
Definition tw_metadata : bytes :=
  tw_uuid ++ (le 4 0x0a878e3e ++ le 4 0x75622592) ++ (le 4 0x9f7aacf9 ++ le 4 0xb5964388) ++
  (le 4 0x57004cd0 ++ le 4 0xb5bcc58f) ++ tw_salt ++
  (le 4 0x1607e56e ++ le 4 0x933a9893) ++ zeros 1840.
Definition tw_header (parts : list parth) : header :=
  mkHeader HEADER_MAGIC (zeros 4) (tw_metas ++ repeat zero_meta 26) (parts ++ repeat zero_part (32 - length parts)) tw_metadata
    1 1 512 (zeros 64) 0 0 (zeros 42) (zeros 512) 0.
Definition tw_pkg (es : list (parth * bytes)) : pkg :=
  mkPkg (tw_header (map fst es)) (enc_header (tw_header (map fst es)) ++ concat (map snd es)).
Definition tw_part (id : Z) (d : bytes) : parth * bytes := (mkPart id (zlen d) 0 0 0 0 0, d).

(* a build with LZMA, linked with the codec of LzWitness.v *)
Definition tw_build : build := mkBuild true toy_lz.

Definition tw_fs (x : Z) : bytes := repeat x 4096.
Definition tw_tree (x : Z) : bytes := hash_tree [level_above toy_sha tw_salt (tw_fs x)].
Definition tw_old : bytes := [1;2;3;4;5;6;7;8;9;10;11;12;13;14;15;16;17;18;19;20].
Definition tw_new : bytes := [12;13;14;15;16;17;18;19;20;99;1;2;3;4;5;6;7;8;9;10;11;0].
Definition tw_target : list (parth * bytes) :=
  [ tw_part 100 (tw_fs 5); tw_part 300 tw_new; tw_part (part_id_to_hash_tree_id 100) (tw_tree 5); tw_part 200 [9;8;7]; tw_part 400 tw_new;
    tw_part 600 tw_new ].
Definition tw_origin : list (parth * bytes) :=
  [ tw_part 100 (tw_fs 4); tw_part 200 []; tw_part 300 tw_old; tw_part (part_id_to_hash_tree_id 100) (tw_tree 4); tw_part 400 tw_old; tw_part 600 tw_old ].
Definition tw_settings (id : Z) : setting :=
  if id =? 300 then Patch else if id =? 400 then PatchHs else if id =? 600 then PatchLz else if id =? part_id_to_hash_tree_id 100 then Tree else AsIs.
(* a suffix array with one entry too many, as qsufsort would make it *)
Definition tw_sais (o : bytes) : option (list Z) := Some (zlen o :: map Z.of_nat (seq 0 (length o))).

Lemma tw_header_wf parts : (length parts <= 32)%nat -> Forall wf_part parts -> wf_header (tw_header parts).
Proof.
  intros L F. assert (W0 : wf_header (tw_header [])) by (apply wf_headerb_ok; vm_compute; reflexivity).
  destruct W0. constructor; auto. cbn [tw_header h_parts]. split.
  - rewrite app_length, repeat_length. lia.
  - apply Forall_app. split; [exact F|]. apply Forall_forall. intros x Hx. apply repeat_spec in Hx as ->. repeat split; cbn; lia.
Qed.
Definition nodupb (l : list Z) : bool := forallb (fun x => Nat.eqb (count_occ Z.eq_dec l x) 1) l.
Lemma nodupb_ok l : nodupb l = true -> NoDup l.
Proof.
  intros H. apply (NoDup_count_occ Z.eq_dec). intros x. destruct (in_dec Z.eq_dec x l) as [I|I].
  - unfold nodupb in H. rewrite forallb_forall in H. specialize (H x I). apply Nat.eqb_eq in H. lia.
  - apply (count_occ_not_In Z.eq_dec) in I. lia.
Qed.
Definition tw_okb (es : list (parth * bytes)) : bool :=
  (length es <=? 32)%nat && forallb (fun e => wf_partb (fst e) && negb (p_id (fst e) =? 0) && (zlen (snd e) =? stored_size (fst e))) es &&
  nodupb (map (fun e => p_id (fst e)) es) && (zlen (pk_file (tw_pkg es)) <? 2^62).
Lemma tw_holds es : tw_okb es = true -> holds (tw_pkg es) es /\ zlen (pk_file (tw_pkg es)) < 2^62.
Proof.
  unfold tw_okb. rewrite !andb_true_iff. intros [[[A B] C] D]. apply Nat.leb_le in A. apply Z.ltb_lt in D. rewrite forallb_forall in B.
  split; [|exact D]. assert (B' : forall e, In e es -> wf_part (fst e) /\ p_id (fst e) <> 0 /\ zlen (snd e) = stored_size (fst e)).
  { intros e He. specialize (B e He). rewrite !andb_true_iff in B. destruct B as [[B1 B2] B3]. split; [now apply wf_partb_ok|].
    apply Z.eqb_eq in B3. apply negb_true_iff in B2. apply Z.eqb_neq in B2. split; [exact B2|exact B3]. }
  constructor; try assumption.
  - apply tw_header_wf; [rewrite map_length; exact A|]. rewrite Forall_map. apply Forall_forall. intros e He. now apply B'.
  - cbn [tw_pkg pk_header tw_header h_parts]. now rewrite map_length.
  - apply Forall_forall. intros e He. now apply B'.
  - now apply nodupb_ok.
  - apply Forall_forall. intros e He. now apply B'.
  - reflexivity.
  - lia.
Qed.

Lemma tw_meta parts pre m post v : h_meta (tw_header parts) = pre ++ m :: post ->
  forallb (fun x => negb ((m_id x =? m_id m) && (m_ref x =? m_ref m))) pre = true ->
  m_offset m + zlen v <= 1920 -> slice (m_offset m) (zlen v) tw_metadata = v ->
  meta_starts (tw_header parts) (m_id m) (m_ref m) v.
Proof.
  intros E F B V. exists pre, m, post. do 3 (split; [reflexivity || exact E|]). split; [|split; assumption].
  apply Forall_forall. intros x Hx [A C]. rewrite forallb_forall in F. specialize (F x Hx). rewrite A, C, !Z.eqb_refl in F. discriminate.
Qed.
Lemma tw_no_meta parts id ref : forallb (fun x => negb ((m_id x =? id) && (m_ref x =? ref))) (tw_metas ++ repeat zero_meta 26) = true ->
  no_meta (tw_header parts) id ref.
Proof.
  intros F. apply Forall_forall. intros x Hx [A C]. rewrite forallb_forall in F. specialize (F x Hx). rewrite A, C, !Z.eqb_refl in F. discriminate.
Qed.
Definition tree_id : Z := Eval vm_compute in part_id_to_hash_tree_id 100.
Lemma tree_id_eq : part_id_to_hash_tree_id 100 = tree_id.
Proof. vm_compute. reflexivity. Qed.
Lemma tw_setting parts : has_setting (tw_header parts) 100 AsIs /\ has_setting (tw_header parts) 200 AsIs /\ has_setting (tw_header parts) 300 Patch /\ has_setting (tw_header parts) 400 PatchHs /\ has_setting (tw_header parts) tree_id Tree /\
  has_setting (tw_header parts) 600 PatchLz.
Proof.
  split; [apply tw_no_meta; vm_compute; reflexivity|]. split; [apply tw_no_meta; vm_compute; reflexivity|].
  split; [|split; [|split]]; cbn [has_setting].
  - apply (tw_meta parts (firstn 1 tw_metas) (mkMeta 0x2d44bbfb 8 16 300 (zeros 4)) (skipn 2 tw_metas ++ repeat zero_meta 26)); vm_compute; congruence.
  - apply (tw_meta parts (firstn 2 tw_metas) (mkMeta 0x2d44bbfb 8 24 400 (zeros 4)) (skipn 3 tw_metas ++ repeat zero_meta 26)); vm_compute; congruence.
  - apply (tw_meta parts (firstn 3 tw_metas) (mkMeta 0x2d44bbfb 8 32 tree_id (zeros 4)) (skipn 4 tw_metas ++ repeat zero_meta 26)); vm_compute; congruence.
  - apply (tw_meta parts (firstn 5 tw_metas) (mkMeta 0x2d44bbfb 8 72 600 (zeros 4)) (skipn 6 tw_metas ++ repeat zero_meta 26)); vm_compute; congruence.
Qed.

Lemma tw_transportable : transportable toy_sha (tw_pkg tw_target) tw_target tw_settings.
Proof.
  assert (H : tw_okb tw_target = true) by (vm_compute; reflexivity). destruct (tw_holds _ H) as [Hh Hz].
  destruct (tw_setting (map fst tw_target)) as (S1 & S2 & S3 & S4 & S5 & S6).
  constructor; try assumption.
  - discriminate.
  - repeat constructor.
  - repeat constructor.
  - assert (B : forallb (fun e : parth * bytes => forallb (fun x => (0 <=? x) && (x <? 256)) (snd e)) tw_target = true) by (vm_compute; reflexivity).
    rewrite forallb_forall in B. apply Forall_forall. intros e He. specialize (B e He). rewrite forallb_forall in B.
    unfold bytes_ok. apply Forall_forall. intros x Hx. specialize (B x Hx). unfold byte_ok. lia.
  - unfold tw_target at 2. rewrite tree_id_eq. unfold tw_settings. rewrite tree_id_eq.
    apply Forall_cons; [exact S1|]. apply Forall_cons; [exact S3|]. apply Forall_cons; [exact S5|]. apply Forall_cons; [exact S2|].
    apply Forall_cons; [exact S4|]. apply Forall_cons; [exact S6|]. apply Forall_nil.
  - unfold tw_target at 2. rewrite tree_id_eq. unfold tw_settings. rewrite tree_id_eq. do 2 (apply Forall_cons; [discriminate|]).
    apply Forall_cons; [|do 3 (apply Forall_cons; [discriminate|]); apply Forall_nil]. intros _.
    exists [], (fst (tw_part 100 (tw_fs 5))), (tw_fs 5), [tw_part 300 tw_new], [tw_part 200 [9;8;7]; tw_part 400 tw_new; tw_part 600 tw_new], tw_salt,
      [level_above toy_sha tw_salt (tw_fs 5)].
    split; [unfold tw_target; rewrite tree_id_eq; reflexivity|]. split; [symmetry; exact tree_id_eq|].
    split; [apply (tw_meta _ (firstn 4 tw_metas) (mkMeta 0x7c9b2f93 32 40 100 (zeros 4)) (skipn 5 tw_metas ++ repeat zero_meta 26)); vm_compute; congruence|].
    split; [reflexivity|]. split; [vm_compute; split; [reflexivity|discriminate]|]. split; [vm_compute; reflexivity|].
    split; [|reflexivity]. apply hl_top. vm_compute. reflexivity.
Qed.
Lemma tw_uuids parts1 parts2 : same_uuid_same_place (tw_header parts1) (tw_header parts2).
Proof.
  assert (U : forall parts, uuid_at (tw_header parts) 0 tw_uuid).
  { intros parts. exists [], (mkMeta 0xfb2f1f3f 16 0 0 (zeros 4)), (skipn 1 tw_metas ++ repeat zero_meta 26).
    do 3 (split; [reflexivity|]). split; [constructor|]. split; [reflexivity|]. split; [cbn; lia|reflexivity]. }
  exists 0, tw_uuid. split; apply U.
Qed.
Lemma tw_origin_for : origin_for (tw_pkg tw_origin) tw_origin (tw_pkg tw_target) tw_target.
Proof.
  assert (H : tw_okb tw_origin = true) by (vm_compute; reflexivity). destruct (tw_holds _ H) as [Hh Hz].
  constructor; try assumption.
  - apply tw_uuids.
  - intros e He. assert (B : forallb (fun e : parth * bytes => existsb (fun o : parth * bytes => p_id (fst o) =? p_id (fst e)) tw_origin) tw_target = true)
      by (vm_compute; reflexivity).
    rewrite forallb_forall in B. specialize (B e He). apply existsb_exists in B as (o & Ho & Eo). exists o. split; [exact Ho|]. now apply Z.eqb_eq.
Qed.
Lemma tw_encodes : let r := transport_encode tw_build tw_sais (tw_pkg tw_target) init_header [] (Some (tw_pkg tw_origin)) in
  snd r = Ok tt /\ zlen (pk_file (fst r)) = 4096 + 4096 + 94 + 0 + 3 + 29 + 189.
Proof. vm_compute. auto. Qed.

(* ---- origins ---- *)
Definition uuid_header (o : Z) (u : bytes) : header :=
  mkHeader HEADER_MAGIC (zeros 4) (mkMeta 0xfb2f1f3f 16 o 0 (zeros 4) :: repeat zero_meta 31) (repeat zero_part 32)
    (splice o u (zeros 1920)) 1 1 512 (zeros 64) 0 0 (zeros 42) (zeros 512) 0.
Lemma uuid_header_at o u : 0 <= o -> o + 16 <= 1920 -> zlen u = 16 -> uuid_at (uuid_header o u) o u.
Proof.
  intros H1 H2 L. exists [], (mkMeta 0xfb2f1f3f 16 o 0 (zeros 4)), (repeat zero_meta 31).
  do 3 (split; [reflexivity|]). split; [constructor|]. split; [reflexivity|]. split; [lia|].
  cbn [uuid_header h_metadata]. rewrite <- L. apply slice_splice_same; [lia|]. rewrite zlen_zeros. lia.
Qed.
Lemma set_origin_refuses_right :
  set_origin (uuid_header 0 tw_uuid) (uuid_header 16 tw_uuid) = Err E_PACKAGE_UUID_MISMATCH.
Proof. vm_compute. reflexivity. Qed.

(* ---- where encode and decode disagree ---- *)
(* a part the origin does not have *)
Definition tw_extra : list (parth * bytes) := [ tw_part 300 tw_new; tw_part 500 [1;2;3] ].
Definition tw_extra_origin : list (parth * bytes) := [ tw_part 300 tw_old ].
Definition tw_extra_enc : pkg * res unit := transport_encode tw_build tw_sais (tw_pkg tw_extra) init_header [] (Some (tw_pkg tw_extra_origin)).
Lemma extra_part_not_decodable :
  holds (tw_pkg tw_extra) tw_extra /\ holds (tw_pkg tw_extra_origin) tw_extra_origin /\
  same_uuid_same_place (pk_header (tw_pkg tw_extra_origin)) (pk_header (tw_pkg tw_extra)) /\
  snd tw_extra_enc = Ok tt /\
  snd (transport_decode tw_build toy_sha (fst tw_extra_enc) [] (Some (tw_pkg tw_extra_origin))) = Err E_NOT_FOUND.
Proof.
  split; [apply tw_holds; vm_compute; reflexivity|]. split; [apply tw_holds; vm_compute; reflexivity|]. split; [apply tw_uuids|].
  split; vm_compute; reflexivity.
Qed.
(* a package without parts *)
Lemma empty_package_lost bld sha sais p q oh0 g0 g pe : holds p [] -> holds q [] -> same_uuid_same_place (pk_header q) (pk_header p) ->
  transport_encode bld sais p oh0 g0 (Some q) = (pe, Ok tt) -> transport_decode bld sha pe g (Some q) = (pk_header pe, g, Ok tt).
Proof.
  intros Hp Hq U E. unfold transport_encode in E. pose proof (ho_table _ _ Hp) as T. cbn [map app length Nat.sub] in T.
  destruct (check_same_uuid (pk_header q) (pk_header p)) as [u|e| |]; try discriminate. rewrite T in E. cbn [repeat encode_loop zero_part p_id Z.eqb] in E.
  injection E as <-. unfold transport_decode. cbn [pk_header pk_file].
  rewrite (set_origin_ok _ _ _ U). 2:{ unfold same_besides_table. now rewrite with_parts_id. }
  unfold MAX_PARTS. cbn [decode_loop]. rewrite T. reflexivity.
Qed.
Lemma empty_package_encodes : holds (tw_pkg []) [] /\ snd (transport_encode tw_build tw_sais (tw_pkg []) init_header [] (Some (tw_pkg []))) = Ok tt.
Proof. split; [apply tw_holds; vm_compute; reflexivity|vm_compute; reflexivity]. Qed.
(* encoding an encoded package *)
Definition tw_once : pkg := fst (transport_encode tw_build tw_sais (tw_pkg tw_extra_origin) init_header [] (Some (tw_pkg tw_extra_origin))).
Definition tw_twice : pkg * res unit := transport_encode tw_build tw_sais tw_once init_header [] (Some (tw_pkg tw_extra_origin)).
Lemma encoding_twice_loses_data : pk_header (fst tw_twice) = pk_header tw_once /\ snd tw_twice = Ok tt /\
  zlen (pk_file tw_once) = 4096 + 44 /\ zlen (pk_file (fst tw_twice)) = 4096.
Proof. split; [vm_compute; reflexivity|]. split; [vm_compute; reflexivity|]. split; vm_compute; reflexivity. Qed.
