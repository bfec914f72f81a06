(* CliFresh.v -- no command touches the transport sizes of a package *)
From Coq Require Import String.
From Verif Require Import BaseLemmas HeaderModel HeaderSpec HeaderHistory CodecProofs PartProofs MetaProofs CrcModel CrcProofs HashModel
  MerkleModel MerkleSpec MerkleApi VerifyModel VerifySpec VerifyProofs VerifySign VerifyWitness PkgModel PkgSpec PkgProofs PkgAdd PkgDelete PkgHistory PkgApi PkgTrees PkgMerkle
  TransportFile UtilModel PkgForget PkgCanon CliModel CliSpec CliMeta CliArgs CliStep CliProofs CliSign ImageSpec ImageProofs ImageSteps ImageMain ImageClaims.
Local Open Scope Z_scope.
Local Open Scope list_scope.

Lemma clean_step sha p fs o : good_hash sha -> pkg_inv sha p fs -> pkg_op_ok o -> zlen (pk_file p) + pkg_op_cost o <= 2^63 -> clean (pk_header p) ->
  clean (pk_header (fst (fst (run_pkg_op sha p o)))).
Proof.
  intros G I Ok Hb C. destruct (keeps_meta o) eqn:Km; [apply (canon_step sha p fs o G I Ok Km Hb C)|].
  pose proof I as [(es & H & O & F) P V Hs (live & M & Ml) D].
  destruct o as [name data flags|id rm|rm|id]; cbn [run_pkg_op pkg_op_ok pkg_op_cost keeps_meta] in *; try discriminate.
  - destruct rm; [|discriminate]. destruct (existsb (fun f => f_id f =? id) fs) eqn:Ex.
    + apply existsb_id in Ex. destruct (first_with_id _ _ Ex) as (fa & f & fb & Ef & Eid & Fa).
      destruct (Forall2_split _ _ _ _ _ _ F Ef) as (a & [q c] & b & -> & F1 & (Fq1 & Fq2 & Fq3) & F2).
      cbn [fst snd] in Fq1, Fq2. rewrite Eid in Fq2. subst id.
      destruct (delete_part_ok sha p a q c b true live G H Hs ltac:(tauto)) as (p' & E & H' & D' & X1 & X2).
      rewrite Fq2 in E. rewrite E. cbn [fst].
      apply (clean_holds _ _ H'). apply (clean_holds _ _ H) in C. rewrite map_app in C |- *. apply Forall_app in C as [C1 C2].
      apply Forall_app. split; [exact C1|]. cbn [map] in C2. inversion C2 as [|x l C3 C4]; subst. rewrite map_map.
      clear - C4. induction b as [|e b IH]; cbn [map] in *; [constructor|]. inversion C4 as [|x l A1 A2]; subst. constructor; auto.
    + assert (Nin : ~ In id (map f_id fs)) by (intros X; apply existsb_id in X; congruence).
      rewrite (delete_part_missing sha p es id true); auto. now rewrite (ids_of _ _ F).
  - destruct rm; [|discriminate]. pose proof (pkg_files_bound _ _ _ I) as Bf.
    destruct (delete_all_ok sha p true live G (ho_wf _ _ H) ltac:(lia) Hs ltac:(tauto)) as (p' & E & H' & L' & D' & X1 & X2).
    rewrite E. cbn [fst]. apply (clean_holds _ _ H'). constructor.
Qed.
Lemma op_clean sha p w o : good_hash sha -> st sha p w -> pkg_op_ok o -> zlen (pk_file p) + pkg_op_cost o <= 2^63 ->
  clean (pk_header p) -> clean (header_of (pk_file (fst (fst (run_pkg_op sha p o))))).
Proof.
  intros G S Ok Hb P. pose proof (clean_step sha p (w_files w) o G (st_inv _ _ _ S) Ok Hb P) as C.
  pose proof (op_step sha p w o G S Ok Hb) as A. destruct (run_pkg_op sha p o) as [[p' x] y]. cbn [fst] in *.
  destruct (spec_pkg_op bpak_id (w_files w) o) as [[fs' x'] y']. destruct A as (_ & _ & S'). rewrite (st_header _ _ _ S'). exact C.
Qed.
Lemma write_clean sha p w h' live : st sha p w -> hm h' live -> same_but_meta (pk_header p) h' -> clean (pk_header p) ->
  clean (header_of (fwrite_at (pk_file p) 0 (enc_header h'))).
Proof.
  intros S M Sm P. pose proof (pkg_files_bound _ _ _ (st_inv _ _ _ S)). rewrite header_of_write; [|apply (hm_wf _ _ M)|lia].
  unfold same_but_meta in Sm. rewrite Sm. exact P.
Qed.

Lemma transport_hm h live part a b h' : 0 <= part < 2^32 -> hm h live -> (length live <= 30)%nat ->
  add_transport_meta h part a b = (h', Ok tt) -> exists live', hm h' live' /\ same_but_meta h h'.
Proof.
  intros Bp M Hl. pose proof M as [W Ma R N]. unfold add_transport_meta.
  pose proof (add_meta_spec h live ID_BPAK_TRANSPORT part 32 ltac:(unfold ID_BPAK_TRANSPORT; lia) Ma) as A.
  destruct (find_index (fun e => (e_id e =? ID_BPAK_TRANSPORT) && (e_ref e =? part)) live) as [i|] eqn:Ef; [rewrite A; discriminate|].
  destruct (Nat.eqb_spec (length live) 32); [lia|]. destruct A as (m' & Hm' & Em' & A). rewrite A. unfold METADATA_BYTES.
  destruct (Z.gtb_spec (meta_end live + 32) 1920); [discriminate|].
  pose proof (metas_are_add _ _ _ ID_BPAK_TRANSPORT part 32 m' ltac:(unfold ID_BPAK_TRANSPORT; lia) Ma Ef ltac:(lia) Hm' ltac:(lia) ltac:(lia)) as M2.
  pose proof (add_meta_no_ghost h live ID_BPAK_TRANSPORT part 32 ltac:(unfold ID_BPAK_TRANSPORT; lia) Ma N) as N2. rewrite A in N2.
  unfold METADATA_BYTES in N2. destruct (Z.gtb_spec (meta_end live + 32) 1920) as [?|_]; [exfalso; lia|]. cbn [fst] in N2.
  set (h2 := with_meta h _) in *. pose proof (meta_end_nonneg live) as Hme.
  pose proof Ma as (X1 & X2 & _).
  assert (Ls : zlen (slice (meta_end live) 32 (h_metadata h)) = 32) by (apply zlen_slice_in; lia).
  assert (W2 : wf_header h2).
  { replace h2 with (with_metadata (with_meta h (h_meta h2)) (h_metadata h)) by (unfold h2; destruct h; reflexivity).
    pose proof M2 as (Y1 & _). apply wf_with_metas; auto; try apply (wf_metadata h W).
    unfold h2. cbn [h_meta with_meta]. destruct (wf_metas h W) as [_ Wm]. apply Forall_list_upd; [exact Wm|].
    rewrite Forall_forall in Wm. destruct (Wm m' (nth_error_In _ _ Hm')) as (_ & _ & _ & _ & W5 & W6).
    unfold wf_meta, fill. cbn [m_id m_size m_offset m_ref m_pad]. unfold ID_BPAK_TRANSPORT. repeat split; auto; lia. }
  assert (Hm2 : hm h2 (live ++ mkEntry ID_BPAK_TRANSPORT part (slice (meta_end live) 32 (h_metadata h)) :: [])).
  { constructor; auto. rewrite app_length. cbn [length]. lia. }
  set (d := le 4 a ++ le 4 b).
  assert (Ld : zlen d = 8) by (unfold d; rewrite zlen_app, !zlen_le; reflexivity).
  assert (Bd : bytes_ok d) by (unfold d; apply bytes_ok_app; split; apply bytes_ok_le).
  destruct (meta_write_ok h2 live ID_BPAK_TRANSPORT part _ [] 0 d Hm2 ltac:(lia) ltac:(lia) Bd) as (h3 & E3 & Hm3 & S3).
  rewrite E3. intros Q. injection Q as <-. eexists. split; [exact Hm3|].
  eapply same_but_meta_trans; [|exact S3]. unfold h2. destruct h; reflexivity.
Qed.

Section Steps.
Context (sha : hashfn) (G : good_hash sha) (p : pkg) (w : world) (Hst : st sha p w) (Hp : clean (pk_header p)).
Let keeps (c : cmd) : Prop := clean (header_of (fst (fst (run_cmd sha c (pk_file p))))).
Lemma cl_file : clean (header_of (pk_file p)).
Proof. rewrite (st_header _ _ _ Hst). exact Hp. Qed.
Lemma cl_add_part name data dh : fits w (CAddPart name data dh) = true -> keeps (CAddPart name data dh).
Proof.
  intros F. cbn [fits] in F. apply andb_prop in F as [F F3]. apply andb_prop in F as [F1 F2].
  destruct (is_name_ok _ F1) as [Bn Hid]. destruct (flags_ok dh) as [Hf1 Hf2].
  unfold keeps. cbn [run_cmd]. unfold cli_add_part, with_package. rewrite (st_open _ _ _ Hst), part_flags_eq.
  pose proof (st_size _ _ _ Hst) as Sz.
  pose proof (op_clean sha p w (OAdd name data (flags_of dh)) G Hst) as A. cbn [pkg_op_ok pkg_op_cost] in A.
  specialize (A ltac:(auto) ltac:(lia) Hp). cbn [run_pkg_op] in A.
  destruct (pkg_add_file sha p data name (flags_of dh)) as [p' r]. exact A.
Qed.
Lemma cl_delete part keep : keeps (CDelete part keep).
Proof.
  unfold keeps. cbn [run_cmd]. unfold cli_delete, with_package. rewrite id_arg_spec.
  destruct (Z.eqb_spec (arg_id part) 0) as [E|E]; [exact cl_file|]. rewrite (st_open _ _ _ Hst).
  pose proof (pkg_files_bound _ _ _ (st_inv _ _ _ Hst)) as Bf.
  pose proof (op_clean sha p w (ODel (arg_id part) (negb keep)) G Hst E) as A. cbn [pkg_op_cost] in A.
  specialize (A ltac:(lia) Hp). cbn [run_pkg_op] in A. destruct (pkg_delete_part sha p (arg_id part) (negb keep)) as [p' r]. exact A.
Qed.
Lemma cl_delete_all keep : keeps (CDeleteAll keep).
Proof.
  unfold keeps. cbn [run_cmd]. unfold cli_delete_all, with_package. rewrite (st_open _ _ _ Hst).
  pose proof (pkg_files_bound _ _ _ (st_inv _ _ _ Hst)) as Bf.
  pose proof (op_clean sha p w (ODelAll (negb keep)) G Hst I) as A. cbn [pkg_op_cost] in A.
  specialize (A ltac:(lia) Hp). cbn [run_pkg_op] in A. destruct (pkg_delete_all_parts sha p (negb keep)) as [p' r]. exact A.
Qed.
Lemma cl_extract_part part : keeps (CExtractPart part).
Proof.
  unfold keeps. cbn [run_cmd]. unfold cli_extract_part, with_package. destruct (_ =? 0); [exact cl_file|]. rewrite (st_open _ _ _ Hst).
  destruct (pkg_extract_file p (id_arg part)) as [o r]. exact cl_file.
Qed.
Lemma cl_extract_meta meta ref : keeps (CExtractMeta meta ref).
Proof.
  unfold keeps. cbn [run_cmd]. unfold cli_extract_meta, with_package. destruct (_ =? 0); [exact cl_file|]. rewrite (st_open _ _ _ Hst).
  destruct (get_meta _ _ _) as [i|e| |]; try exact cl_file. destruct (nth_error _ i); [|exact cl_file].
  destruct (meta_read _ i 0 _); exact cl_file.
Qed.
Lemma cl_add_meta name ref src enc : fits w (CAddMeta name ref src enc) = true -> keeps (CAddMeta name ref src enc).
Proof.
  intros F. 
  cbn [fits] in F. apply andb_prop in F as [F F4]. apply andb_prop in F as [F F3]. apply andb_prop in F as [F1 F2]. apply Nat.leb_le in F3.
  destruct (is_name_ok _ F1) as [Bn Hid]. pose proof (bpak_id_bound name Bn) as Bi.
  unfold keeps. cbn [run_cmd]. unfold cli_add_meta, with_package. rewrite (st_open _ _ _ Hst).
  destruct (do (buf, len) <- read_source src; encode_input enc buf len) as [v|e| |] eqn:Ev; try exact cl_file.
  destruct (add_meta_bytes _ _ _ v) as [h1 [u|e| |]] eqn:Ea; try exact cl_file. destruct u.
  assert (Bv : bytes_ok v).
  { pose proof (input_ok src enc F4) as Io. rewrite Ev in Io. destruct (meta_value src enc); try contradiction; destruct Io as [Io1 Io2]; congruence. }
  assert (Br : 0 <= match ref with Some r => bpak_id r | None => 0 end < 2^32).
  { destruct ref as [r|]; [|lia]. cbn [opt_text] in F2. apply bpak_id_bound. now apply text_bytes_ok. }
  pose proof (st_hm _ _ _ Hst) as M.
  pose proof (add_meta_bytes_cases (pk_header p) (w_metas w) (bpak_id name) _ v ltac:(lia) Br Bv M F3) as C. rewrite Ea in C. cbn [snd] in C.
  destruct (existsb _ _); [discriminate|]. destruct (_ <? _); [discriminate|]. destruct C as (h' & E' & M' & S'). injection E' as ->.
  unfold pkg_write_header. cbn [fst pk_header pk_file]. exact (write_clean sha p w h' _ Hst M' S' Hp).
Qed.
Lemma cl_transport part enc dec : fits w (CTransportAdd part enc dec) = true -> keeps (CTransportAdd part enc dec).
Proof.
  intros F. cbn [fits] in F. apply andb_prop in F as [F F4]. apply andb_prop in F as [F F3]. apply andb_prop in F as [F1 F2]. apply Nat.leb_le in F4.
  pose proof (arg_id_bound part (text_bytes_ok _ F1)) as Bp. pose proof (st_hm _ _ _ Hst) as M.
  unfold keeps. cbn [run_cmd]. unfold cli_transport_add, with_package. rewrite (st_open _ _ _ Hst), id_arg_spec.
  destruct (add_transport_meta _ _ _ _) as [h1 [u|e| |]] eqn:Ea; try exact cl_file. destruct u.
  destruct (transport_hm _ (w_metas w) _ _ _ h1 Bp M F4 Ea) as (live' & M' & S').
  unfold pkg_write_header. cbn [fst pk_header pk_file]. exact (write_clean sha p w h1 _ Hst M' S' Hp).
Qed.
Lemma cl_set_meta name s enc : fits w (CSetMeta name s enc) = true -> keeps (CSetMeta name s enc).
Proof.
  intros F. cbn [fits] in F. apply andb_prop in F as [F F3]. apply andb_prop in F as [F1 F2].
  destruct (is_name_ok _ F1) as [Bn Hid]. pose proof (text_bytes_ok _ F2) as Bs. pose proof (bpak_id_bound name Bn) as Bi.
  unfold keeps. cbn [run_cmd]. unfold cli_set_meta. rewrite (st_read _ _ _ _ Hst).
  pose proof (st_hm _ _ _ Hst) as M. rewrite (hm_get _ _ _ _ Hid M).
  set (id := bpak_id name) in *. set (h := pk_header p) in *.
  destruct (find_index (has_key id 0) (w_metas w)) as [i|] eqn:Ei; [|exact cl_file].
  destruct (find_index_split _ _ _ Ei) as (a & x & b & El & Ea & Ex). apply has_key_entry in Ex. rewrite Ex in El. set (v := e_val x) in *.
  pose proof (fun h' l A B => write_clean sha p w h' l Hst A B Hp) as Wp. fold h in Wp.
  rewrite El in M. rewrite <- Ea.
  assert (Fx : forall n d, bytes_ok d -> zlen d = n -> clean (header_of (fst (fst
     (let '(h', r) := set_fixed h (length a) n (Some d) in
      match r with Ok _ => (fwrite_at (pk_file p) 0 (enc_header h'), @None bytes, Ok tt) | Err e => (pk_file p, None, Err e) | UB => (pk_file p, None, UB) | Stuck => (pk_file p, None, Stuck) end))))).
  { intros n d Bd Ld. destruct (set_fixed_ok h a id 0 v b n d M Bd Ld) as [C1 C2]. destruct (Z.eq_dec (zlen v) n) as [En|En].
    - destruct (C2 En) as (_ & h' & E' & Hm & Sm). rewrite E'. exact (Wp _ _ Hm Sm).
    - rewrite (C1 En). exact cl_file. }
  destruct enc as [e|].
  - destruct (bytes_eqb e (bytes_of "integer")).
    + destruct (strtol0 s) as [z|]; [exact (Fx 8 (le 8 (u64 z)) (bytes_ok_le _ _) (zlen_le 8 _))|].
      destruct (slot_at _ _ _ _ _ _ M) as (m & Hm & _ & _ & Es & _).
      unfold set_fixed. rewrite Hm, Es. destruct (negb _); exact cl_file.
    + destruct (bytes_eqb e (bytes_of "id")); [exact (Fx 4 (le 4 (bpak_id s)) (bytes_ok_le _ _) (zlen_le 4 _))|exact cl_file].
  - pose proof (set_string_ok h a id 0 v b s ltac:(lia) ltac:(lia) M Bs ltac:(lia)) as C.
    assert (L1 : zlen (s ++ [0]) = zlen s + 1) by (rewrite zlen_app; reflexivity). rewrite L1 in C.
    destruct (zlen s + 1 <=? zlen v).
    + destruct C as (h' & E' & Hm & Sm). rewrite E'. exact (Wp _ _ Hm Sm).
    + cbn zeta in C. set (ms := purge (has_key id 0) 1920 (a ++ mkEntry id 0 v :: b)) in *.
      destruct (1920 <? meta_end ms + (zlen s + 1)).
      * destruct (set_string h (length a) s) as [h' r']. cbn [snd] in C. rewrite C. exact cl_file.
      * destruct C as (h' & E' & Hm & Sm). rewrite E'. exact (Wp _ _ Hm Sm).
Qed.
Lemma cl_set_ids key ks : fits w (CSetIds key ks) = true -> keeps (CSetIds key ks).
Proof.
  intros F. cbn [fits] in F. apply andb_prop in F as [F1 F2]. unfold keeps. cbn [run_cmd]. unfold cli_set_ids.
  rewrite (st_read _ _ _ _ Hst). pose proof (inv_wf _ _ _ (st_inv _ _ _ Hst)) as W. pose proof (pkg_files_bound _ _ _ (st_inv _ _ _ Hst)) as Bf.
  assert (B : forall k, text k = true -> 0 <= id_arg k < 2^32).
  { intros k Hk. rewrite id_arg_spec. apply arg_id_bound. now apply text_bytes_ok. }
  assert (Wk : forall h k, wf_header h -> 0 <= k < 2^32 -> wf_header (with_key_id h k)).
  { intros h k [] Hk. constructor; auto. }
  assert (Wks : forall h k, wf_header h -> 0 <= k < 2^32 -> wf_header (with_keystore_id h k)).
  { intros h k [] Hk. constructor; auto. }
  destruct key as [k|], ks as [k2|]; cbn [opt_text] in *; cbn [fst]; [| | |exact cl_file]; (rewrite header_of_write; [exact Hp|auto|lia]).
Qed.
Lemma cl_sign_raw s : fits w (CSignRaw s) = true -> keeps (CSignRaw s).
Proof.
  intros F. unfold keeps. cbn [run_cmd]. unfold cli_sign_raw, with_package. rewrite (st_open _ _ _ Hst).
  destruct s as [s|]; [|exact cl_file]. cbn [fits] in F. apply andb_prop in F as [F1 F2]. apply all_bytes_ok in F1.
  pose proof (zlen_nonneg s) as Hs. pose proof (inv_wf _ _ _ (st_inv _ _ _ Hst)) as W. pose proof (pkg_files_bound _ _ _ (st_inv _ _ _ Hst)) as Bf.
  rewrite (ztake_all 1024 s) by lia. unfold pkg_write_raw_signature. destruct (Z.gtb_spec (zlen s) 512); [exfalso; lia|].
  unfold pkg_write_header. cbn [pk_header pk_file fst].
  assert (U : u16 (zlen s) = zlen s) by (unfold u16; rewrite Z.mod_small; lia). rewrite U.
  assert (Lz : zlen (zeros 512) = 512) by (rewrite zlen_zeros; reflexivity).
  rewrite header_of_write; [exact Hp| |lia].
  destruct W. constructor; cbn [h_magic h_pad0 h_meta h_parts h_metadata h_hash_kind h_signature_kind h_alignment h_payload_hash h_key_id h_keystore_id h_pad1 h_signature h_signature_sz with_signature]; auto.
  - split; [rewrite zlen_splice; lia|]. apply bytes_ok_splice; auto. apply bytes_ok_zeros.
  - lia.
Qed.
Lemma cl_add_merkle name data salt dh : fits w (CAddMerkle name data salt dh) = true -> keeps (CAddMerkle name data salt dh).
Proof.
  intros F. cbn [fits] in F. do 14 (apply andb_prop in F as [F ?]).
  repeat match goal with H : (_ && _) = true |- _ => apply andb_prop in H as [? ?] end.
  repeat match goal with H : negb _ = true |- _ => apply negb_true_iff in H end.
  repeat match goal with H : Nat.leb _ _ = true |- _ => apply Nat.leb_le in H end.
  destruct (is_name_ok name ltac:(assumption)) as [Bn Hid]. destruct (flags_ok dh) as [Hf1 Hf2].
  assert (Hbs : bytes_ok salt) by (apply all_bytes_ok; assumption).
  pose proof Hst as [I M S]. pose proof I as [(es & Hh & O & Fm) P V Hs Ms D]. pose proof (st_size _ _ _ Hst) as Sz.
  assert (Tn : part_name_to_hash_tree_id name = bpak_id (name ++ bytes_of "-hash-tree")) by apply hash_tree_id_name.
  destruct (not_existsb_ids (bpak_id name) (bpak_id (name ++ bytes_of "-hash-tree")) (w_files w) ltac:(assumption)) as [N1 N2].
  assert (Le : length (w_files w) = length es) by (clear - Fm; induction Fm; cbn [length]; congruence).
  assert (Kn : forall k, k = ID_MERKLE_SALT \/ k = ID_MERKLE_ROOT_HASH -> ~ In (k, bpak_id name) (map e_key (w_metas w))).
  { intros k Hk. apply existsb_key_false. apply not_true_iff_false. intros C. apply existsb_exists in C as (e & He & Ke).
    match goal with H : existsb (fun e => has_key _ _ e || has_key _ _ e) _ = false |- _ => apply not_true_iff_false in H; apply H end.
    apply existsb_exists. exists e. split; [exact He|]. destruct Hk as [-> | ->]; rewrite Ke; auto using orb_true_r. }
  destruct (add_merkle_ok sha p es (w_metas w) data name salt (flags_of dh)) as (p' & ls & Hls & At & E & H' & D' & M' & S'); auto; try lia;
    try (eapply plain_of; eauto; fail); try (rewrite (ids_of _ _ Fm); exact N1); try (rewrite Tn, (ids_of _ _ Fm); exact N2).
  unfold keeps. cbn [run_cmd]. unfold cli_add_merkle, with_package. rewrite (st_open _ _ _ Hst), part_flags_eq, E. cbn [fst].
  assert (Hq : header_of (pk_file p') = pk_header p').
  { rewrite (ho_file _ _ H'). apply header_of_enc. apply (ho_wf _ _ H'). }
  rewrite Hq. apply (clean_holds _ _ H'). rewrite map_app. apply Forall_app. split; [exact (proj1 (clean_holds _ _ Hh) Hp)|].
  constructor; [split; reflexivity|]. constructor; [split; reflexivity|constructor].
Qed.
End Steps.

Theorem clean_cmd sha p w c : good_hash sha -> st sha p w -> clean (pk_header p) -> fits w c = true ->
  clean (header_of (fst (fst (run_cmd sha c (pk_file p))))).
Proof.
  intros G S P F. destruct c as [h s|name data dh|name data salt dh|name ref src enc|part enc dec|name s enc|key ks|part keep|keep|part|meta ref|sig].
  - cbn [run_cmd]. pose proof (create_pristine sha h s (pk_file p)) as C.
    destruct (hash_named h) as [hk|] eqn:Eh; [destruct (sign_named s) as [sk|] eqn:Es|].
    + exact (pr_parts _ (C hk sk G eq_refl eq_refl)).
    + unfold cli_create. rewrite hash_arg_named, sign_arg_named, Eh, Es. cbn [fst]. now apply (cl_file sha p w).
    + unfold cli_create. rewrite hash_arg_named, Eh. cbn [fst]. now apply (cl_file sha p w).
  - now apply (cl_add_part sha G p w).
  - now apply (cl_add_merkle sha G p w).
  - now apply (cl_add_meta sha p w).
  - now apply (cl_transport sha p w).
  - now apply (cl_set_meta sha p w).
  - now apply (cl_set_ids sha p w).
  - now apply (cl_delete sha G p w).
  - now apply (cl_delete_all sha G p w).
  - now apply (cl_extract_part sha p w).
  - now apply (cl_extract_meta sha p w).
  - now apply (cl_sign_raw sha p w).
Qed.
