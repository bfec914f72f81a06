(* TransportMain.v -- encoding and decoding whole packages *)
From Verif Require Import Base BaseLemmas HeaderModel HeaderSpec CodecProofs PartProofs CrcModel HashModel MerkleModel MerkleSpec VerifyModel VerifySpec
  PkgSpec PkgProofs MetaProofs BspatchModel BsdiffModel HsModel HsPatchModel LzModel LzSpec
  TransportModel TransportSpec TransportFile TransportLay TransportEncode TransportDecode.

Definition origin_ok (origin : option pkg) (p : pkg) (es : entries) : Prop :=
  match origin with None => True | Some q => exists eo, origin_for q eo p es end.

Lemma origin_has_of origin p es e : origin_ok origin p es -> In e es -> origin_has origin (p_id (fst e)).
Proof.
  destruct origin as [q|]; [|intros; exact I]. intros (eo & O) Hin. exists eo. split; [apply O|]. split; [apply O|].
  destruct (og_parts _ _ _ _ O _ Hin) as (o & Ho & Eo). rewrite <- Eo. now apply (in_map (fun e : parth * bytes => p_id (fst e))).
Qed.
Lemma holds_same_entries q (eo eo' : entries) : holds q eo -> holds q eo' -> eo = eo'.
Proof.
  intros A B. pose proof (holds_lay _ _ A) as LA. pose proof (holds_lay _ _ B) as LB.
  assert (M : map fst eo = map fst eo').
  { pose proof (la_table _ _ LA) as TA. pose proof (la_table _ _ LB) as TB. rewrite TA in TB.
    pose proof (la_nonzero _ _ LA) as NA. pose proof (la_nonzero _ _ LB) as NB. revert NA NB TB. clear.
    generalize (32 - length eo)%nat (32 - length eo')%nat. intros k k' NA NB. revert eo' NB.
    induction NA as [|e eo He _ IH]; intros [|e' eo'] NB T; cbn [map app] in T.
    - reflexivity.
    - inversion NB as [|? ? He' _]; subst. destruct k; cbn [repeat] in T; [discriminate|]. injection T as T _. rewrite <- T in He'. now elim He'.
    - destruct k'; cbn [repeat] in T; [discriminate|]. injection T as T _. rewrite T in He. now elim He.
    - inversion NB as [|? ? He' NB']; subst. injection T as T1 T2. cbn [map]. rewrite T1. f_equal. now apply IH. }
  pose proof (ho_file _ _ A) as FA. pose proof (ho_file _ _ B) as FB. rewrite FA in FB. apply app_inv_head in FB.
  pose proof (la_sizes _ _ LA) as SA. pose proof (la_sizes _ _ LB) as SB. revert M FB SA SB. clear. revert eo'.
  induction eo as [|[x d] eo IH]; intros [|[x' d'] eo'] M F SA SB; try discriminate; [reflexivity|].
  cbn [map concat fst snd] in *. injection M as -> M. inversion SA as [|? ? S1 SA']; subst. inversion SB as [|? ? S2 SB']; subst. cbn [fst snd] in *.
  assert (length d = length d'). { unfold zlen in *. lia. }
  apply app_inj_length in F; auto. destruct F as [-> F]. f_equal. auto.
Qed.
Lemma diffable_of e : bytes_ok (snd e) -> diffable e.
Proof.
  intros B. exact B.
Qed.

Lemma clean_of sha p es st : transportable sha p es st -> Forall clean es.
Proof.
  intros T. apply Forall_forall. intros e He. destruct (entry_wf _ _ _ (tp_holds _ _ _ _ T) He) as (W & S & _).
  pose proof (tp_plain _ _ _ _ T) as P. unfold plain in P. rewrite Forall_forall in P. specialize (P _ He).
  pose proof (tp_fresh _ _ _ _ T) as Fr. rewrite Forall_forall in Fr. split; [exact W|]. split; [exact P|]. split; [now apply Fr|].
  rewrite S. unfold stored_size. now rewrite P.
Qed.
(* what bpak_transport_decode_set_origin really compares: the origin's uuid
   with the origin's bytes at the place where the patch stores its uuid *)
Lemma uuid_entry h o u : h_meta h <> [] -> uuid_at h o u -> exists i m, get_meta h ID_BPAK_PACKAGE 0 = Ok i /\ nth_error (h_meta h) i = Some m /\
  m_offset m = o /\ meta_read h i 0 16 = Ok u /\ o + 16 <= 1920.
Proof.
  intros _ (pre & m & post & E & I & R & F & O & B & S). exists (length pre), m.
  assert (N : nth_error (h_meta h) (length pre) = Some m) by (rewrite E, nth_error_app2, Nat.sub_diag by lia; reflexivity).
  split; [|split; [exact N|split; [exact O|split; [|lia]]]].
  - unfold get_meta, get_meta_int. rewrite E, find_index_split; [reflexivity| |rewrite I, R; reflexivity].
    eapply Forall_impl; [|exact F]. intros x Hx. cbn beta. destruct (Z.eqb_spec (m_id x) ID_BPAK_PACKAGE); [|reflexivity].
    destruct (Z.eqb_spec (m_ref x) 0); [|reflexivity]. elim Hx. auto.
  - unfold meta_read. rewrite N. unfold METADATA_BYTES. rewrite O. destruct (Z.gtb_spec (o + 0 + 16) 1920); [lia|]. rewrite Z.add_0_r. now rewrite S.
Qed.
Lemma uuid_meta_ne h o u : uuid_at h o u -> h_meta h <> [].
Proof. intros (pre & m & post & E & _). rewrite E. destruct pre; discriminate. Qed.
Lemma set_origin_exact q p oq op u v : uuid_at q oq u -> uuid_at p op v ->
  set_origin q p = if bytes_eqb u (slice op 16 (h_metadata q)) then Ok tt else Err E_PACKAGE_UUID_MISMATCH.
Proof.
  intros Hq Hp. destruct (uuid_entry q oq u (uuid_meta_ne _ _ _ Hq) Hq) as (i & m & G & N & O & M & B).
  destruct (uuid_entry p op v (uuid_meta_ne _ _ _ Hp) Hp) as (j & m' & G' & N' & O' & M' & B').
  unfold set_origin. rewrite G, G'. cbn [bind]. rewrite N', M. cbn [bind]. unfold METADATA_BYTES. rewrite O'.
  destruct (Z.gtb_spec (op + 16) 1920); [lia|]. reflexivity.
Qed.
Lemma set_origin_same_place q p o u v : uuid_at q o u -> uuid_at p o v -> set_origin q p = Ok tt.
Proof.
  intros Hq Hp. rewrite (set_origin_exact _ _ _ _ _ _ Hq Hp). destruct Hq as (pre & m & post & _ & _ & _ & _ & _ & _ & S).
  rewrite S. now rewrite bytes_eqb_refl.
Qed.
Lemma set_origin_missing q p : no_meta q 0xfb2f1f3f 0 \/ no_meta p 0xfb2f1f3f 0 -> set_origin q p = Err E_NOT_FOUND.
Proof.
  unfold set_origin. intros [N|N].
  - pose proof (meta_none _ _ _ N) as G. change 4214169407 with ID_BPAK_PACKAGE in G. now rewrite G.
  - pose proof (meta_none _ _ _ N) as G. change 4214169407 with ID_BPAK_PACKAGE in G.
    destruct (get_meta q ID_BPAK_PACKAGE 0) as [i|e| |] eqn:E; cbn [bind].
    + now rewrite G.
    + unfold get_meta, get_meta_int in E. destruct (find_index _ _); [discriminate|]. congruence.
    + unfold get_meta, get_meta_int in E. destruct (find_index _ _); discriminate.
    + unfold get_meta, get_meta_int in E. destruct (find_index _ _); discriminate.
Qed.
Lemma check_same_uuid_exact q p oq op u v : uuid_at q oq u -> uuid_at p op v ->
  check_same_uuid q p = if bytes_eqb u v then Ok tt else Err E_PACKAGE_UUID_MISMATCH.
Proof.
  intros Hq Hp. destruct (uuid_entry q oq u (uuid_meta_ne _ _ _ Hq) Hq) as (i & m & G & N & O & M & B).
  destruct (uuid_entry p op v (uuid_meta_ne _ _ _ Hp) Hp) as (j & m' & G' & N' & O' & M' & B').
  unfold check_same_uuid. rewrite G, G', M. cbn [bind]. rewrite M'. reflexivity.
Qed.
Lemma check_missing q p : no_meta q 0xfb2f1f3f 0 \/ no_meta p 0xfb2f1f3f 0 -> check_same_uuid q p = UB.
Proof.
  unfold check_same_uuid. intros [N|N].
  - pose proof (meta_none _ _ _ N) as G. change 4214169407 with ID_BPAK_PACKAGE in G. now rewrite G.
  - pose proof (meta_none _ _ _ N) as G. change 4214169407 with ID_BPAK_PACKAGE in G. rewrite G. now destruct (get_meta q ID_BPAK_PACKAGE 0).
Qed.
Lemma set_origin_ok q p p' : same_uuid_same_place q p -> same_besides_table p p' -> set_origin q p' = Ok tt.
Proof. intros (o & u & A & B) ->. eapply set_origin_same_place; [exact A|]. exact B. Qed.

Section B.
Variable bld : build.
(* the encoded package *)
Lemma encode_package (Hlz : b_lzma bld = true -> lz_good (b_lib bld)) sha sais p es st origin oh0 g0 pe :
  transportable sha p es st -> origin_ok origin p es ->
  transport_encode bld sais p oh0 g0 origin = (pe, Ok tt) -> zlen (pk_file pe) < 2^62 ->
  exists cs : entries, Forall2 (fun e c => coded bld origin (st (p_id (fst e))) e c) es cs /\ lay (pk_header pe) cs /\
    same_besides_table (pk_header p) (pk_header pe) /\ pk_file pe = fwrite_at g0 0 (enc_header (pk_header pe) ++ concat (map snd cs)).
Proof.
  intros T O E B. eapply encode_ok; eauto; try apply T. apply Forall_forall. intros e He.
  pose proof (tp_settings _ _ _ _ T) as S. rewrite Forall_forall in S. pose proof (tp_bytes _ _ _ _ T) as Bt. rewrite Forall_forall in Bt.
  split; [now apply S|]. split; [eapply origin_has_of; eauto|]. intros Pt. apply diffable_of; eauto.
Qed.
Lemma transport_roundtrip (Hlz : b_lzma bld = true -> lz_good (b_lib bld)) sha sais p es st origin oh0 g0 pe g :
  good_hash sha -> transportable sha p es st -> origin_ok origin p es ->
  transport_encode bld sais p oh0 g0 origin = (pe, Ok tt) -> zlen (pk_file pe) < 2^62 ->
  transport_decode bld sha pe g origin = (pk_header p, fwrite_at g 0 (pk_file p), Ok tt).
Proof.
  intros Hs T O E B. destruct (encode_package Hlz _ _ _ _ _ _ _ _ _ T O E B) as (cs & F & L & Sb & Fe).
  pose proof (tp_holds _ _ _ _ T) as Hp. pose proof (ho_wf _ _ Hp) as W. pose proof (holds_lay _ _ Hp) as Lp.
  pose proof (zlen_enc_same _ _ _ W Sb L) as Le. pose proof (zlen_enc_header _ W) as LH.
  unfold transport_decode.
  assert (Og : match origin with Some q => set_origin (pk_header q) (pk_header pe) | None => Ok tt end = Ok tt).
  { destruct origin as [q|]; [|reflexivity]. destruct O as (eo & O). eapply set_origin_ok; [apply O|exact Sb]. }
  rewrite Og. pose proof (ho_file _ _ Hp) as Fp.
  assert (Bp : 4096 + zlen (concat (map snd es)) < 2^62). { rewrite <- LH, <- zlen_app, <- Fp. apply T. }
  rewrite Fp. eapply (decode_loop_ok bld sha origin (pk_header p) g (pk_file pe) es cs st Hs W Lp (clean_of _ _ _ _ T)) with (es1 := []) (cs1 := []) (cs2 := cs) (es2 := es); eauto.
  - apply Forall_forall. intros e He. pose proof (tp_settings _ _ _ _ T) as S. rewrite Forall_forall in S.
    pose proof (tp_trees _ _ _ _ T) as Tr. rewrite Forall_forall in Tr.
    split; [intros _; now apply S|]. split; [eapply origin_has_of; eauto|]. now apply Tr.
  - exists (enc_header (pk_header pe)). rewrite Fe, fwrite_0, <- app_assoc. eexists. split; [exact Le|reflexivity].
  - cbn [app]. eapply coded_ids; eauto.
  - intros N. now elim N.
  - pose proof (la_count _ _ Lp). unfold MAX_PARTS. exact H.
  - apply T.
Qed.
Lemma setbit_range x : 0 <= x < 2^8 -> 0 <= Z.setbit x 1 < 2^8.
Proof.
  intros H. assert (F : forallb (fun n => (0 <=? Z.setbit (Z.of_nat n) 1) && (Z.setbit (Z.of_nat n) 1 <? 2^8)) (seq 0 256) = true) by (vm_compute; reflexivity).
  rewrite forallb_forall in F. specialize (F (Z.to_nat x)). rewrite Z2Nat.id in F by lia. specialize (F ltac:(apply in_seq; lia)). lia.
Qed.
(* written to an empty file, the encoded package is a well-formed package *)
Lemma encoded_holds_over (Hlz : b_lzma bld = true -> lz_good (b_lib bld)) sha sais p es st origin oh0 (g0 : bytes) pe :
  transportable sha p es st -> origin_ok origin p es -> zlen g0 <= 4096 ->
  transport_encode bld sais p oh0 g0 origin = (pe, Ok tt) -> zlen (pk_file pe) < 2^62 ->
  exists cs : entries, holds pe cs /\ same_besides_table (pk_header p) (pk_header pe) /\
    Forall2 (fun e c => stored_as (st (p_id (fst e))) e c) es cs.
Proof.
  intros T O Lg E B. destruct (encode_package Hlz _ _ _ _ _ _ _ _ _ T O E B) as (cs & F & L & Sb & Fe).
  pose proof (tp_holds _ _ _ _ T) as Hp. pose proof (ho_wf _ _ Hp) as W. pose proof (zlen_enc_same _ _ _ W Sb L) as Le.
  rewrite fwrite_0, zdrop_all, app_nil_r in Fe by (rewrite zlen_app; pose proof (zlen_nonneg (concat (map snd cs))); lia).
  assert (Sz : forall c, In c cs -> zlen (snd c) < 2^62).
  { intros c Hc. apply in_split in Hc as (a & b & ->). rewrite Fe, zlen_app, zlen_split in B.
    pose proof (zlen_nonneg (enc_header (pk_header pe))). pose proof (zlen_nonneg (concat (map snd a))). pose proof (zlen_nonneg (concat (map snd b))). lia. }
  pose proof (clean_of _ _ _ _ T) as Cl.
  assert (Wc : Forall (fun c : parth * bytes => wf_part (fst c) /\ zlen (snd c) = stored_size (fst c)) cs).
  { assert (Trv : forall e c n, clean e -> In c cs -> travels (fst e) (fst c) n -> n = zlen (snd c) -> wf_part (fst c) /\ zlen (snd c) = stored_size (fst c)).
    { intros e c n (We & Fe' & _) Hc Tr ->. specialize (Sz c Hc). pose proof (zlen_nonneg (snd c)). rewrite Tr. unfold stored_size.
      cbn [p_flags p_transport_size]. rewrite Z.setbit_eq by lia. split; [|reflexivity].
      destruct We as (w1 & w2 & w3 & w4 & w5 & w6 & w7). pose proof (setbit_range _ w6).
      unfold wf_part. cbn [p_id p_size p_offset p_transport_size p_pad_bytes p_flags p_pad]. lia. }
    apply Forall_forall. intros c Hc. clear - F Cl Hc Trv Sz Hp.
    assert (HH : Forall2 (fun e c => clean e /\ coded bld origin (st (p_id (fst e))) e c) es cs).
    { clear - F Cl. induction F; constructor; inversion Cl; subst; auto. }
    clear F Cl Sz.
    assert (exists e, clean e /\ coded bld origin (st (p_id (fst e))) e c) as (e & Ce & Cc).
    { clear - HH Hc. induction HH as [|e c' es cs Hx _ IH]; [destruct Hc|]. destruct Hc as [->|Hc]; [exists e; tauto|auto]. }
    destruct (st (p_id (fst e))); cbn [coded] in Cc.
    - subst c. destruct Ce as (We & Fe & _ & Z). split; [exact We|]. unfold stored_size. now rewrite Fe.
    - destruct Cc as [Tr _]. eapply Trv; eauto.
    - destruct Cc as [Tr _]. eapply Trv; eauto.
    - destruct Cc as [Tr _]. eapply Trv; eauto.
    - destruct Cc as [Tr E0]. eapply Trv; eauto. now rewrite E0. }
  exists cs. split; [|split; [exact Sb|]].
  - constructor; try apply L.
    + rewrite Sb. destruct W. constructor; cbn [with_parts h_magic h_pad0 h_meta h_parts h_metadata h_hash_kind h_signature_kind h_alignment
         h_payload_hash h_key_id h_keystore_id h_pad1 h_signature h_signature_sz]; auto. split; [eapply lay_length; eauto|].
      rewrite (la_table _ _ L). apply Forall_app. split.
      * rewrite Forall_map. eapply Forall_impl; [|exact Wc]. intros c [H _]. exact H.
      * apply Forall_forall. intros x Hx. apply repeat_spec in Hx as ->. repeat split; cbn; lia.
    + eapply Forall_impl; [|exact Wc]. intros c [_ H]. exact H.
    + exact Fe.
    + lia.
  - clear - F. induction F as [|e c es cs H _ IH]; constructor; auto. destruct (st (p_id (fst e))); cbn [coded stored_as] in *; auto; apply H.
Qed.
Lemma encoded_holds (Hlz : b_lzma bld = true -> lz_good (b_lib bld)) sha sais p es st origin oh0 pe :
  transportable sha p es st -> origin_ok origin p es ->
  transport_encode bld sais p oh0 [] origin = (pe, Ok tt) -> zlen (pk_file pe) < 2^62 ->
  exists cs : entries, holds pe cs /\ same_besides_table (pk_header p) (pk_header pe) /\
    Forall2 (fun e c => stored_as (st (p_id (fst e))) e c) es cs.
Proof. intros T O. apply (encoded_holds_over Hlz sha sais p es st origin oh0 []); auto. cbn. lia. Qed.
End B.
