(* TransportLay.v -- part tables, offsets and metadata lookups of packages
   while they are encoded and decoded *)
From Verif Require Import Base BaseLemmas HeaderModel HeaderSpec CodecProofs PartProofs CrcModel HashModel MerkleSpec VerifyModel VerifySpec
  PkgSpec PkgProofs TransportModel TransportSpec TransportFile.

Notation entries := (list (parth * bytes)).
(* the table lists [es]; every part's size is the length of its contents *)
Record lay (h : header) (es : entries) : Prop := {
  la_count : (length es <= 32)%nat;
  la_table : h_parts h = map fst es ++ repeat zero_part (32 - length es);
  la_nonzero : Forall (fun e : parth * bytes => p_id (fst e) <> 0) es;
  la_distinct : NoDup (map (fun e : parth * bytes => p_id (fst e)) es);
  la_sizes : Forall (fun e : parth * bytes => part_size (fst e) = zlen (snd e)) es }.

Lemma holds_lay p es : holds p es -> lay (pk_header p) es.
Proof.
  intros H. constructor; try apply H. apply Forall_forall. intros e He.
  destruct (entry_wf _ _ _ H He) as (W & S & B). rewrite part_size_stored; auto; lia.
Qed.
Lemma lay_get h (a : entries) q c b : lay h (a ++ (q, c) :: b) ->
  get_part h (p_id q) = Ok (length a) /\ nth_error (h_parts h) (length a) = Some q.
Proof.
  intros H. pose proof (la_table _ _ H) as T. split.
  - unfold get_part. rewrite T, map_app. cbn [map fst]. rewrite <- app_assoc. cbn [app].
    rewrite find_index_split.
    + now rewrite map_length.
    + pose proof (la_distinct _ _ H) as D. rewrite map_app in D. cbn [map fst] in D. apply NoDup_remove_2 in D.
      rewrite Forall_map. apply Forall_forall. intros e He. apply Z.eqb_neq. intros E. elim D.
      apply in_or_app. left. rewrite <- E. now apply (in_map (fun e : parth * bytes => p_id (fst e))).
    + apply Z.eqb_refl.
  - rewrite T, map_app. cbn [map fst]. rewrite <- app_assoc. cbn [app].
    rewrite nth_error_app2 by now rewrite map_length. now rewrite map_length, Nat.sub_diag.
Qed.
Lemma part_offset_loop_lay id (r : list parth) : forall (a : entries) acc, 0 <= acc ->
  Forall (fun e : parth * bytes => p_id (fst e) <> 0) a -> Forall (fun e : parth * bytes => p_id (fst e) <> id) a ->
  Forall (fun e : parth * bytes => part_size (fst e) = zlen (snd e)) a ->
  acc + zlen (concat (map snd a)) < 2^63 ->
  part_offset_loop id acc (map fst a ++ r) = part_offset_loop id (acc + zlen (concat (map snd a))) r.
Proof.
  induction a as [|e a IH]; intros acc Ha N D S B.
  - cbn [map concat app] in *. change (zlen (@nil Z)) with 0. now rewrite Z.add_0_r.
  - inversion N; subst. inversion D; subst. inversion S; subst. cbn [map concat app part_offset_loop] in *.
    rewrite zlen_app in *. pose proof (zlen_nonneg (snd e)). pose proof (zlen_nonneg (concat (map snd a))).
    destruct (Z.eqb_spec (p_id (fst e)) 0); [contradiction|]. destruct (Z.eqb_spec (p_id (fst e)) id); [contradiction|].
    rewrite H5. rewrite s64_id by lia. rewrite IH by (auto; lia). f_equal. lia.
Qed.
Lemma lay_offset h (a : entries) q c b q' : lay h (a ++ (q, c) :: b) -> p_id q' = p_id q ->
  4096 + zlen (concat (map snd a)) < 2^63 -> part_offset h q' = 4096 + zlen (concat (map snd a)).
Proof.
  intros H E B. unfold part_offset. rewrite (la_table _ _ H), map_app, <- app_assoc, E.
  pose proof (la_nonzero _ _ H) as N. apply Forall_app in N as [Na Nq]. inversion Nq; subst.
  pose proof (la_sizes _ _ H) as S. apply Forall_app in S as [Sa _].
  pose proof (la_distinct _ _ H) as D. rewrite map_app in D. cbn [map fst] in D. apply NoDup_remove_2 in D.
  rewrite part_offset_loop_lay; auto; [|unfold HDR_SIZE; lia|].
  - cbn [map app part_offset_loop fst]. destruct (Z.eqb_spec (p_id q) 0); [reflexivity|]. rewrite Z.eqb_refl. reflexivity.
  - apply Forall_forall. intros e He E2. elim D. apply in_or_app. left. rewrite <- E2.
    now apply (in_map (fun e : parth * bytes => p_id (fst e))).
Qed.
Lemma lay_data_pos h (a : entries) q c b q' : lay h (a ++ (q, c) :: b) -> p_id q' = p_id q ->
  4096 + zlen (concat (map snd a)) < 2^63 -> data_pos h q' = 4096 + zlen (concat (map snd a)).
Proof.
  intros H E B. unfold data_pos. rewrite (lay_offset _ _ _ _ _ _ H E B). pose proof (zlen_nonneg (concat (map snd a))).
  rewrite s64_id; unfold HDR_SIZE; lia.
Qed.
Lemma lay_upd h (a : entries) q c b q' c' : lay h (a ++ (q, c) :: b) -> p_id q' = p_id q -> part_size q' = zlen c' ->
  lay (set_part h (length a) q') (a ++ (q', c') :: b) /\
  set_part h (length a) q' = with_parts h (map fst (a ++ (q', c') :: b) ++ repeat zero_part (32 - length (a ++ (q', c') :: b))).
Proof.
  intros H E S.
  assert (T : set_part h (length a) q' = with_parts h (map fst (a ++ (q', c') :: b) ++ repeat zero_part (32 - length (a ++ (q', c') :: b)))).
  { unfold set_part. f_equal. rewrite (la_table _ _ H), !map_app. cbn [map fst]. rewrite <- !app_assoc. cbn [app].
    rewrite <- (map_length fst a). rewrite list_upd_middle. rewrite !app_length. cbn [length]. reflexivity. }
  split; [|exact T]. destruct H as [H1 H2 H3 H4 H5]. constructor.
  - rewrite app_length in *. cbn [length] in *. lia.
  - rewrite T. reflexivity.
  - apply Forall_app in H3 as [F1 F2]. inversion F2; subst. apply Forall_app. split; auto. constructor; auto. cbn [fst]. rewrite E. assumption.
  - rewrite map_app in *. cbn [map fst] in *. now rewrite E.
  - apply Forall_app in H5 as [F1 F2]. inversion F2; subst. apply Forall_app. split; auto.
Qed.

(* ---- metadata ---- *)
Lemma meta_get h id ref v : wf_header h -> meta_starts h id ref v ->
  exists i, get_meta h id ref = Ok i /\ forall k n, 0 <= k -> 0 <= n -> k + n <= zlen v -> meta_read h i k n = Ok (slice k n v).
Proof.
  intros W (pre & m & post & E & I1 & I2 & P & B & V). exists (length pre). split.
  - unfold get_meta, get_meta_int. rewrite E, find_index_split; auto.
    + eapply Forall_impl; [|exact P]. intros x Hx. cbn beta. destruct (Z.eqb_spec (m_id x) id); [|reflexivity].
      destruct (Z.eqb_spec (m_ref x) ref); [|reflexivity]. elim Hx. auto.
    + rewrite I1, I2, !Z.eqb_refl. reflexivity.
  - intros k n Hk Hn Hkn. unfold meta_read. rewrite E, nth_error_app2, Nat.sub_diag by lia. cbn [nth_error].
    unfold METADATA_BYTES. destruct (m_offset m + k + n >? 1920) eqn:G; [lia|]. f_equal.
    assert (Om : 0 <= m_offset m).
    { destruct (wf_metas _ W) as [_ F]. rewrite E in F. apply Forall_app in F as [_ F]. inversion F as [|? ? Hm _]; subst. apply Hm. }
    transitivity (slice k n (slice (m_offset m) (zlen v) (h_metadata h))); [|now rewrite V].
    rewrite slice_slice by lia. f_equal. lia.
Qed.
Lemma meta_none h id ref : no_meta h id ref -> get_meta h id ref = Err E_NOT_FOUND.
Proof.
  intros N. unfold get_meta, get_meta_int. replace (find_index _ _) with (@None nat); [reflexivity|]. symmetry.
  apply find_index_None. eapply Forall_impl; [|exact N]. intros x Hx. cbn beta.
  destruct (Z.eqb_spec (m_id x) id); [|reflexivity]. destruct (Z.eqb_spec (m_ref x) ref); [|reflexivity]. elim Hx. auto.
Qed.
Lemma setting_get h id enc dec : wf_header h -> 0 <= enc < 2^32 -> 0 <= dec < 2^32 ->
  meta_starts h ID_BPAK_TRANSPORT id (le 4 enc ++ le 4 dec) ->
  exists m b1 b2, get_meta h ID_BPAK_TRANSPORT id = Ok m /\ meta_read h m 0 4 = Ok b1 /\ unle b1 = enc /\
    meta_read h m 4 4 = Ok b2 /\ unle b2 = dec.
Proof.
  intros W He Hd M. destruct (meta_get _ _ _ _ W M) as (i & G & R).
  assert (L : forall x, zlen (le 4 x) = 4) by reflexivity.
  exists i, (le 4 enc), (le 4 dec). split; [exact G|].
  rewrite !R by (try lia; rewrite zlen_app, !L; lia).
  split; [reflexivity|]. split; [apply unle_le; lia|]. split; [reflexivity|]. apply unle_le; lia.
Qed.
(* ---- header sizes ---- *)
Lemma zlen_enc_with_parts h l : wf_header h -> length l = 32%nat -> zlen (enc_header (with_parts h l)) = 4096.
Proof.
  intros W L. pose proof (zlen_flat_meta h W) as M.
  assert (P : zlen (flat_map enc_part l) = 32 * zlen l).
  { clear. induction l as [|x l IH]; [reflexivity|]. cbn [flat_map]. rewrite zlen_app, zlen_cons, zlen_enc_part, IH. lia. }
  destruct (wf_pad0 _ W), (wf_metadata _ W), (wf_payload_hash _ W), (wf_pad1 _ W), (wf_signature _ W).
  unfold enc_header, with_parts. cbn [h_magic h_pad0 h_meta h_parts h_metadata h_hash_kind h_signature_kind h_alignment
         h_payload_hash h_key_id h_keystore_id h_pad1 h_signature h_signature_sz]. unfold zlen in P at 2. rewrite L in P. zlia.
Qed.
Lemma lay_length h es : lay h es -> length (h_parts h) = 32%nat.
Proof. intros H. rewrite (la_table _ _ H), app_length, map_length, repeat_length. pose proof (la_count _ _ H). lia. Qed.
Lemma zlen_enc_same h h' es : wf_header h -> same_besides_table h h' -> lay h' es -> zlen (enc_header h') = 4096.
Proof. intros W E L. rewrite E. apply zlen_enc_with_parts; auto. eapply lay_length; eauto. Qed.
