(* PyInv.v -- the state of an open Package object and what lookups find in it *)
From Verif Require Import BaseLemmas HeaderModel HeaderSpec CodecProofs PartProofs MetaProofs CrcModel CrcProofs HashModel MerkleModel
  VerifyModel VerifySpec VerifyProofs VerifySign VerifyWitness PkgModel PkgSpec PkgProofs PkgAdd PkgDelete PkgHistory PkgApi PyModel PySpec.

Definition body (fs : list fentry) : bytes := concat (map file_stored fs).
Definition headed (h : header) (es : list (parth * bytes)) : pkg := mkPkg h (enc_header h ++ concat (map snd es)).

Record hinv (h : header) (a : apkg) : Prop := {
  hi_es : exists es : list (parth * bytes), holds (headed h es) es /\ offsets_from 4096 es /\ Forall2 file_matches (a_files a) es;
  hi_plain : Forall (fun f => Z.testbit (f_flags f) 1 = false) (a_files a);
  hi_metas : metas_are (h_meta h) (h_metadata h) (a_metas a);
  hi_ghost : no_ghost_refs (h_meta h);
  hi_magic : h_magic h = HEADER_MAGIC;
  hi_attr : forall x, get_attr h x = a_get a x;
  hi_sig : zlen (a_sig a) <= 512 /\ h_signature_sz h = zlen (a_sig a) /\ ztake (zlen (a_sig a)) (h_signature h) = a_sig a }.
Definition obj_ok (x : handle) : Prop := match x with HMeta id _ => id <> 0 | HPart id => id <> 0 end.
Record py_inv (s : pyst) (a : apkg) : Prop := {
  iv_fp : py_fp (st_obj s) = FpOpen true;
  iv_objs : st_handles s = a_objs a;
  iv_ok : Forall obj_ok (a_objs a);
  iv_h : hinv (st_header s) a;
  iv_file : exists x, zlen x = 64 /\ bytes_ok x /\
    st_file s = enc_header (HeaderModel.with_payload_hash (st_header s) x) ++ body (a_files a) }.

Lemma body_eq fs es : Forall2 file_matches fs es -> concat (map snd es) = body fs.
Proof. unfold body. induction 1 as [|f e fs es (H1 & _) _ IH]; [reflexivity|]. cbn [map concat]. now rewrite H1, IH. Qed.
Lemma hi_wf h a : hinv h a -> wf_header h.
Proof. intros [(es & H & _) _ _ _ _ _ _]. exact (ho_wf _ _ H). Qed.
Lemma holds_headed h h' es : holds (headed h es) es -> wf_header h' -> h_parts h' = h_parts h -> holds (headed h' es) es.
Proof.
  intros [H1 H2 H3 H4 H5 H6 H7 H8] W P. unfold headed in *. cbn [pk_header pk_file] in *.
  constructor; cbn [pk_header pk_file]; auto; try congruence.
  rewrite zlen_app, zlen_enc_header in * by auto. exact H8.
Qed.
Lemma hinv_bound h a : hinv h a -> 4096 + stored_bytes (a_files a) < 2^63.
Proof.
  intros [(es & H & _ & F) _ _ _ _ _ _]. pose proof (ho_bound _ _ H) as B. unfold headed in B. cbn [pk_header pk_file] in B.
  rewrite zlen_app, zlen_enc_header in B by exact (ho_wf _ _ H). rewrite (body_eq _ _ F) in B. exact B.
Qed.
(* the same package, another payload hash *)
Lemma hinv_hash h a x : hinv h a -> zlen x = 64 -> bytes_ok x -> hinv (HeaderModel.with_payload_hash h x) a.
Proof.
  intros H Lx Bx. pose proof (hi_wf _ _ H) as W. destruct H as [(es & H & O & F) P M N G A S].
  constructor; auto.
  exists es. split; auto. eapply holds_headed; eauto. now apply wf_with_payload_hash.
Qed.
Lemma hash_id h : HeaderModel.with_payload_hash h (h_payload_hash h) = h.
Proof. destruct h; reflexivity. Qed.
Lemma two_hash h x y : HeaderModel.with_payload_hash (HeaderModel.with_payload_hash h x) y = HeaderModel.with_payload_hash h y.
Proof. destruct h; reflexivity. Qed.

(* ---- files and entries by id ---- *)
Lemma file_split_spec id fs : match file_split id fs with
  | Some (x, g, y) => fs = x ++ g :: y /\ f_id g = id /\ Forall (fun f => f_id f <> id) x
  | None => ~ In id (map f_id fs) end.
Proof.
  induction fs as [|f fs IH]; cbn [file_split map]; [tauto|].
  destruct (Z.eqb_spec (f_id f) id) as [E|E].
  - split; [reflexivity|]. split; auto.
  - destruct (file_split id fs) as [[[x g] y]|].
    + destruct IH as (-> & E2 & Fx). split; [reflexivity|]. split; auto.
    + intros [C|C]; contradiction.
Qed.
Lemma meta_split_spec id ref l : match meta_split id ref l with
  | Some (x, v, y) => l = x ++ mkEntry id ref v :: y
  | None => ~ In (id, ref) (map e_key l) end.
Proof.
  induction l as [|e l IH]; cbn [meta_split map]; [tauto|].
  destruct ((e_id e =? id) && (e_ref e =? ref)) eqn:E.
  - apply andb_prop in E as [E1 E2]. apply Z.eqb_eq in E1, E2. subst. destruct e; reflexivity.
  - destruct (meta_split id ref l) as [[[x v] y]|].
    + now rewrite IH.
    + intros [C|C]; [|contradiction]. unfold e_key in C. injection C as C1 C2. rewrite C1, C2, !Z.eqb_refl in E. discriminate.
Qed.
Lemma found_part h a id : hinv h a -> id <> 0 -> match file_split id (a_files a) with
  | Some (x, g, y) => exists q, get_part h id = Ok (length x) /\ nth_error (h_parts h) (length x) = Some q /\
      p_id q = id /\ p_flags q = f_flags g /\ Z.testbit (f_flags g) 1 = false /\ p_size q = zlen (f_data g) /\
      p_pad_bytes q = padding (zlen (f_data g)) /\ part_offset h q = 4096 + stored_bytes x
  | None => get_part h id = Err E_NOT_FOUND end.
Proof.
  intros [(es & H & O & F) P _ _ _ _ _] Hid. pose proof (file_split_spec id (a_files a)) as S.
  destruct (file_split id (a_files a)) as [[[x g] y]|].
  - destruct S as (Ef & Eg & _). rewrite Ef in *.
    destruct (Forall2_split _ _ _ _ _ _ F eq_refl) as (b1 & [q c] & b2 & -> & F1 & (Q1 & Q2 & Q3 & Q4 & Q5) & F2).
    cbn [fst snd] in *. exists q. pose proof (get_part_at _ _ _ _ _ H) as [G1 G2]. pose proof (part_offset_at _ _ _ _ _ H) as G3.
    unfold headed in *. cbn [pk_header] in *. rewrite Q2, Eg in G1.
    assert (L : length x = length b1) by (clear - F1; induction F1; cbn [length]; congruence).
    rewrite L. split; auto. split; auto. split; [congruence|]. split; auto. split.
    { rewrite Forall_forall in P. apply P. apply in_elt. }
    split; auto. split; auto. rewrite G3, (body_eq _ _ F1). reflexivity.
  - pose proof (get_part_none (headed h es) es id H Hid) as G. unfold headed in G. cbn [pk_header] in G. apply G.
    now rewrite (ids_of _ _ F).
Qed.
Lemma found_meta h a id ref : hinv h a -> id <> 0 -> match meta_split id ref (a_metas a) with
  | Some (x, v, y) => exists m, get_meta h id ref = Ok (length x) /\ nth_error (h_meta h) (length x) = Some m /\
      m_id m = id /\ m_ref m = ref /\ m_size m = zlen v /\ m_offset m = meta_end x /\
      meta_end x + zlen v <= 1920 /\ slice (meta_end x) (zlen v) (h_metadata h) = v
  | None => get_meta h id ref = Err E_NOT_FOUND end.
Proof.
  intros H Hid. pose proof (hi_metas _ _ H) as M. pose proof (meta_split_spec id ref (a_metas a)) as S.
  rewrite get_meta_find. pose proof M as Mi. apply metas_are_iff in Mi as (_ & _ & ND & _ & Hlay & _).
  rewrite (find_key_layout 0 _ _ id ref Hid Hlay).
  destruct (meta_split id ref (a_metas a)) as [[[x v] y]|].
  - rewrite S in *. rewrite find_key_at by auto. destruct M as (_ & _ & _ & _ & _ & Hn & _).
    destruct (Hn (length x) (mkEntry id ref v)) as (B & D & m & Hm & E1 & E2 & E3 & E4).
    { rewrite nth_error_app2, Nat.sub_diag by lia. reflexivity. }
    rewrite firstn_app, Nat.sub_diag, firstn_all, firstn_O, app_nil_r in *. cbn [e_id e_ref e_val] in *.
    exists m. auto 10.
  - apply find_key_None in S. now rewrite S.
Qed.

(* ---- writing the header ---- *)
Lemma head_write (hd hd' rest : bytes) : zlen hd = zlen hd' -> fwrite_at (hd ++ rest) 0 hd' = hd' ++ rest.
Proof.
  intros L. pose proof (zlen_nonneg hd). pose proof (zlen_nonneg rest). rewrite fwrite_at_in by (rewrite ?zlen_app; lia).
  unfold splice. rewrite ztake_0. cbn [app]. rewrite Z.add_0_l, <- L, zdrop_app_r by lia. now rewrite Z.sub_diag, zdrop_0.
Qed.
Lemma store_ok s a h' a' v hs : py_inv s a -> hinv h' a' -> body (a_files a') = body (a_files a) ->
  a_objs a' = hs -> Forall obj_ok hs ->
  exists s', store (with_handles s hs) h' v = (s', Val v) /\ py_inv s' a' /\ st_header s' = h'.
Proof.
  intros [I1 I2 I3 I4 (x & X1 & X2 & X3)] H' B Eo Ok. unfold store. cbn [with_handles st_obj]. rewrite I1.
  eexists. split; [reflexivity|]. split; [|reflexivity]. constructor; cbn [st_obj with_pkg py_fp st_handles with_handles]; auto.
  - congruence.
  - pose proof (hi_wf _ _ H') as W. destruct (wf_payload_hash _ W) as [L1 L2]. exists (h_payload_hash h').
    split; auto. split; auto. unfold st_header, st_file, with_pkg, pkg_write_header. cbn [st_obj with_handles py_pkg pk_header pk_file].
    rewrite hash_id. fold (st_file s). rewrite X3, B. apply head_write.
    rewrite !zlen_enc_header; auto. apply wf_with_payload_hash; auto. exact (hi_wf _ _ I4).
Qed.
Lemma with_handles_id s hs : st_handles s = hs -> with_handles s hs = s.
Proof. intros <-. destruct s; reflexivity. Qed.
Lemma store_ok0 s a h' a' v : py_inv s a -> hinv h' a' -> body (a_files a') = body (a_files a) -> a_objs a' = a_objs a ->
  exists s', store s h' v = (s', Val v) /\ py_inv s' a' /\ st_header s' = h'.
Proof.
  intros I H B E. pose proof (store_ok s a h' a' v (a_objs a) I H B E (iv_ok _ _ I)) as X.
  rewrite with_handles_id in X by exact (iv_objs _ _ I). exact X.
Qed.
Lemma alloc_ok s a x : py_inv s a -> obj_ok x ->
  exists s', alloc s x = (s', fst (a_new a x)) /\ py_inv s' (snd (a_new a x)).
Proof.
  intros [I1 I2 I3 I4 I5] Hx. unfold alloc. rewrite I2. eexists. split; [reflexivity|].
  constructor; cbn [st_obj st_handles with_handles a_new snd a_set_objs a_objs]; auto.
  - apply Forall_app. auto.
  - destruct I4; constructor; auto.
Qed.
Lemma alloc_list_ok s a xs : py_inv s a -> Forall obj_ok xs ->
  exists s', alloc_list s xs = (s', fst (a_news a xs)) /\ py_inv s' (snd (a_news a xs)).
Proof.
  intros [I1 I2 I3 I4 I5] Hx. unfold alloc_list. rewrite I2. eexists. split; [reflexivity|].
  constructor; cbn [st_obj st_handles with_handles a_news snd a_set_objs a_objs]; auto.
  - apply Forall_app. auto.
  - destruct I4; constructor; auto.
Qed.

(* ---- changes of the header ---- *)
Lemma wf_set_attr h x n : wf_header h -> 0 <= n < 2^32 -> wf_header (set_attr h x n).
Proof.
  intros [W1 W2 W3 W4 W5 W6 W7 W8 W9 W10 W11 W12 W13 W14] Hn.
  destruct x; constructor; cbn [set_attr with_hash_kind with_key_id with_keystore_id h_magic h_pad0 h_meta h_parts h_metadata h_hash_kind
    h_signature_kind h_alignment h_payload_hash h_key_id h_keystore_id h_pad1 h_signature h_signature_sz]; auto; unfold u8; lia.
Qed.
Lemma hinv_attr h a x n : hinv h a -> hinv (set_attr h x (n mod 2^32)) (a_set a x n).
Proof.
  intros H. pose proof (hi_wf _ _ H) as W. destruct H as [(es & H & O & F) P M N Mg A S].
  assert (E8 : u8 (n mod 2^32) = n mod 2^8).
  { unfold u8. change (2^8) with 256. change (2^32) with (256 * 16777216).
    rewrite <- Znumtheory.Zmod_div_mod; try lia. exists 16777216. lia. }
  assert (W' : wf_header (set_attr h x (n mod 2^32))) by (apply wf_set_attr; auto; lia).
  assert (E : exists es0 : list (parth * bytes), holds (headed (set_attr h x (n mod 2^32)) es0) es0 /\ offsets_from 4096 es0 /\ Forall2 file_matches (a_files a) es0).
  { exists es. split; auto. eapply holds_headed; eauto. destruct x; reflexivity. }
  pose proof (A HashKind) as A1. pose proof (A SignatureKind) as A2. pose proof (A KeyId) as A3. pose proof (A KeystoreId) as A4.
  cbn [get_attr a_get] in *.
  destruct x; constructor; auto; intros y; destruct y; auto.
Qed.
Lemma hinv_sig h a (sig : bytes) : hinv h a -> zlen sig <= 512 -> bytes_ok sig ->
  hinv (with_signature h (splice 0 sig (zeros 512)) (u16 (zlen sig))) (a_set_sig a sig).
Proof.
  intros H L B. pose proof (hi_wf _ _ H) as W. destruct H as [(es & H & O & F) P M N Mg A S].
  pose proof (zlen_nonneg sig) as Ls.
  assert (U : u16 (zlen sig) = zlen sig) by (unfold u16; rewrite Z.mod_small; lia). rewrite U.
  assert (Lz : zlen (zeros 512) = 512) by (rewrite zlen_zeros; lia).
  assert (W' : wf_header (with_signature h (splice 0 sig (zeros 512)) (zlen sig))).
  { apply wf_with_signature; auto; try lia.
    - rewrite zlen_splice; lia.
    - apply bytes_ok_splice; auto. apply bytes_ok_zeros. }
  constructor; auto.
  - exists es. split; auto. eapply holds_headed; eauto.
  - split; [exact L|]. split; [reflexivity|]. cbn [with_signature h_signature a_set_sig a_sig]. unfold splice.
    rewrite ztake_0. cbn [app]. rewrite ztake_app_l by lia. apply ztake_all. lia.
Qed.
Lemma hinv_metas h a h' ms : hinv h a -> wf_header h' -> metas_are (h_meta h') (h_metadata h') ms -> no_ghost_refs (h_meta h') ->
  h' = with_metadata (with_meta h (h_meta h')) (h_metadata h') -> hinv h' (a_set_metas a ms).
Proof.
  intros H W' M' N' E. destruct H as [(es & H & O & F) P M N Mg A S].
  constructor; auto.
  - exists es. split; auto. eapply holds_headed; eauto. rewrite E. reflexivity.
  - rewrite E. exact Mg.
  - intros x. specialize (A x). rewrite E. destruct x; exact A.
  - rewrite E. exact S.
Qed.
Lemma only_metadata h md : with_metadata h md = with_metadata (with_meta h (h_meta h)) md.
Proof. destruct h; reflexivity. Qed.
Lemma only_meta h ms : with_meta h ms = with_metadata (with_meta h ms) (h_metadata h).
Proof. destruct h; reflexivity. Qed.
(* one entry gets another key *)
Lemma metas_are_rekey slots md x id ref v y m id' ref' : metas_are slots md (x ++ mkEntry id ref v :: y) ->
  nth_error slots (length x) = Some m -> id' <> 0 ->
  ((id', ref') = (id, ref) \/ ~ In (id', ref') (map e_key (x ++ mkEntry id ref v :: y))) ->
  metas_are (list_upd (length x) (mkMeta id' (m_size m) (m_offset m) ref' (m_pad m)) slots) md (x ++ mkEntry id' ref' v :: y).
Proof.
  intros M Hm Hid Hk. apply metas_are_iff in M as (L1 & L2 & ND & NZ & Lay & Dat). apply metas_are_iff.
  split; [now rewrite length_list_upd|]. split; auto. split.
  { rewrite map_app in *. cbn [map e_key e_id e_ref] in *. destruct Hk as [E|Hn].
    - unfold e_key at 2. cbn [e_id e_ref]. rewrite E. exact ND.
    - apply NoDup_remove in ND as [ND Hx].
      apply NoDup_Add with (a := (id', ref')) (l := map e_key x ++ map e_key y); [apply Add_app|]. split; auto.
      intros C. apply Hn. apply in_app_or in C as [C|C]; apply in_or_app; [now left|right; now right]. }
  split.
  { apply Forall_app in NZ as [N1 N2]. inversion N2; subst. apply Forall_app. split; auto. }
  split.
  - apply layout_app in Lay as (s1 & s2 & -> & Hl & La & Lb). destruct s2 as [|m2 s2]; cbn [layout] in Lb; [contradiction|].
    rewrite nth_error_app2, Hl, Nat.sub_diag in Hm by lia. cbn [nth_error] in Hm. injection Hm as ->.
    rewrite <- Hl, list_upd_middle. apply layout_app. exists s1, (mkMeta id' (m_size m) (m_offset m) ref' (m_pad m) :: s2).
    split; auto. split; auto. split; auto. cbn [layout e_id e_ref e_val m_id m_ref m_size m_offset]. destruct Lb as (_ & _ & L3 & L4 & L5). auto.
  - apply data_ok_app in Dat as [Da Db]. apply data_ok_app. split; auto.
Qed.
