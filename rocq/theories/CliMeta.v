(* CliMeta.v -- metadata edits on a header *)
From Coq Require Import String.
From Verif Require Import BaseLemmas HeaderModel HeaderSpec HeaderHistory CodecProofs PartProofs MetaProofs CrcModel CrcProofs HashModel
  MerkleModel VerifyModel VerifySpec VerifySign VerifyWitness PkgModel PkgSpec PkgProofs PkgDelete PkgHistory PkgTrees PkgMerkle
  UtilModel CliModel CliSpec.
Local Open Scope Z_scope.

Record hm (h : header) (live : list mentry) : Prop := {
  hm_wf : wf_header h;
  hm_are : metas_are (h_meta h) (h_metadata h) live;
  hm_room : (length live < 32)%nat;
  hm_ghost : no_ghost_refs (h_meta h) }.

Lemma existsb_key id ref live : existsb (has_key id ref) live = true <-> In (id, ref) (map e_key live).
Proof.
  rewrite existsb_exists, in_map_iff. unfold has_key, e_key. split; intros (e & A & B); exists e.
  - split; auto. apply andb_prop in B as [B1 B2]. apply Z.eqb_eq in B1, B2. congruence.
  - injection A as <- <-. split; auto. now rewrite !Z.eqb_refl.
Qed.
Lemma existsb_key_false id ref live : existsb (has_key id ref) live = false <-> ~ In (id, ref) (map e_key live).
Proof. rewrite <- existsb_key. destruct (existsb _ _); split; congruence. Qed.

Lemma add_meta_no_ghost h live id ref size : id <> 0 -> metas_are (h_meta h) (h_metadata h) live -> no_ghost_refs (h_meta h) ->
  no_ghost_refs (h_meta (fst (add_meta h id ref size))).
Proof.
  intros Hid M N. pose proof (add_meta_spec h live id ref size Hid M) as A.
  destruct (find_index _ live); [rewrite A; exact N|]. destruct (length live =? 32)%nat; [rewrite A; exact N|].
  destruct A as (m & Hm & _ & A). rewrite A. cbn [fst h_meta with_meta]. apply Forall_list_upd; [exact N|].
  cbn [fill m_id]. contradiction.
Qed.
Lemma meta_write_meta h i k d h' : meta_write h i k d = Ok h' -> h_meta h' = h_meta h.
Proof.
  unfold meta_write. destruct (nth_error _ i); [|discriminate]. destruct (_ >? _); [discriminate|]. intros E. injection E as <-. reflexivity.
Qed.
Lemma add_meta_bytes_no_ghost h live id ref v h' r : id <> 0 -> metas_are (h_meta h) (h_metadata h) live -> no_ghost_refs (h_meta h) ->
  add_meta_bytes h id ref v = (h', r) -> no_ghost_refs (h_meta h').
Proof.
  intros Hid M N. unfold add_meta_bytes. pose proof (add_meta_no_ghost h live id ref (zlen v) Hid M N) as G.
  destruct (add_meta h id ref (zlen v)) as [h1 [i|e| |]]; cbn [fst] in G; try (intros E; injection E as <- <-; exact G).
  destruct (meta_write h1 i 0 v) as [h2|e| |] eqn:Ew; intros E; injection E as <- <-; auto.
  rewrite (meta_write_meta _ _ _ _ _ Ew). exact G.
Qed.
Lemma add_meta_bytes_cases h live id ref v : 0 < id < 2^32 -> 0 <= ref < 2^32 -> bytes_ok v -> hm h live -> (length live <= 30)%nat ->
  if existsb (has_key id ref) live then snd (add_meta_bytes h id ref v) = Err E_EXISTS
  else if 1920 <? meta_end live + zlen v then snd (add_meta_bytes h id ref v) = Err E_NO_SPACE_LEFT
  else exists h', add_meta_bytes h id ref v = (h', Ok tt) /\ hm h' (live ++ [mkEntry id ref v]) /\ same_but_meta h h'.
Proof.
  intros Hid Href Bv [W M R N] Hl.
  destruct (existsb (has_key id ref) live) eqn:Ex.
  - apply existsb_key in Ex. unfold add_meta_bytes. pose proof (add_meta_spec h live id ref (zlen v) ltac:(lia) M) as A.
    destruct (find_index (fun e => (e_id e =? id) && (e_ref e =? ref)) live) eqn:Ef.
    + rewrite A. reflexivity.
    + apply find_key_None in Ef. contradiction.
  - apply existsb_key_false in Ex. destruct (Z.ltb_spec 1920 (meta_end live + zlen v)).
    + unfold add_meta_bytes. pose proof (add_meta_spec h live id ref (zlen v) ltac:(lia) M) as A.
      assert (Hf : find_index (fun e => (e_id e =? id) && (e_ref e =? ref)) live = None) by now apply find_key_None.
      rewrite Hf in A. destruct (Nat.eqb_spec (length live) 32); [lia|].
      destruct A as (m & _ & _ & ->). unfold METADATA_BYTES.
      destruct (Z.gtb_spec (meta_end live + zlen v) 1920); [reflexivity|lia].
    + destruct (add_meta_bytes_ok h live id ref v Hid Href Bv W M Ex R ltac:(lia)) as (h' & E & W' & S & M').
      exists h'. split; auto. split; auto. constructor; auto.
      * rewrite app_length. cbn [length]. lia.
      * exact (add_meta_bytes_no_ghost h live id ref v h' (Ok tt) ltac:(lia) M N E).
Qed.

Lemma meta_write_ok h a id ref v b k d : hm h (a ++ mkEntry id ref v :: b) -> 0 <= k -> k + zlen d <= zlen v -> bytes_ok d ->
  exists h', meta_write h (length a) k d = Ok h' /\ hm h' (a ++ mkEntry id ref (splice k d v) :: b) /\ same_but_meta h h'.
Proof.
  intros [W M R N] Hk Hd Bd. pose proof (metas_are_write _ _ a id ref v b k d M Hk Hd) as M2.
  pose proof M as (M1 & Ml & _ & _ & _ & H & _). destruct (H (length a) (mkEntry id ref v)) as (B & _ & m & Hm & _ & _ & Es & Eo).
  { rewrite nth_error_app2, Nat.sub_diag by lia. reflexivity. }
  cbn [e_val] in *. rewrite firstn_app, Nat.sub_diag, firstn_all, firstn_O, app_nil_r in *.
  unfold meta_write. rewrite Hm, Eo. unfold METADATA_BYTES. destruct (Z.gtb_spec (meta_end a + k + zlen d) 1920); [lia|].
  eexists. split; [reflexivity|]. split.
  - constructor; cbn [h_meta h_metadata with_metadata]; auto.
    + pose proof (meta_end_nonneg a). pose proof (zlen_nonneg d).
      replace (with_metadata h (splice (meta_end a + k) d (h_metadata h))) with
        (with_metadata (with_meta h (h_meta h)) (splice (meta_end a + k) d (h_metadata h))) by (destruct h; reflexivity).
      apply wf_with_metas; auto; try apply (wf_metas h W).
      * rewrite zlen_splice; lia.
      * apply bytes_ok_splice; auto. apply (wf_metadata h W).
    + rewrite app_length in *. exact R.
  - destruct h; reflexivity.
Qed.
Lemma slot_at h a id ref v b : hm h (a ++ mkEntry id ref v :: b) ->
  exists m, nth_error (h_meta h) (length a) = Some m /\ m_id m = id /\ m_ref m = ref /\ m_size m = zlen v /\ zlen v <= 1920.
Proof.
  intros [_ M _ _]. destruct M as (_ & _ & _ & _ & _ & H & _). destruct (H (length a) (mkEntry id ref v)) as (B & _ & m & Hm & E1 & E2 & E3 & _).
  - rewrite nth_error_app2, Nat.sub_diag by lia. reflexivity.
  - exists m. cbn [e_id e_ref e_val] in *. pose proof (meta_end_nonneg (firstn (length a) (a ++ mkEntry id ref v :: b))). repeat split; auto. lia.
Qed.
Lemma splice_whole {A} (d v : list A) : zlen d = zlen v -> splice 0 d v = d.
Proof. intros E. unfold splice. rewrite ztake_0, Z.add_0_l, zdrop_all by lia. now rewrite app_nil_r. Qed.
Lemma splice_two {A} (d e v : list A) : zlen d + zlen e = zlen v -> splice (zlen d) e (splice 0 d v) = d ++ e.
Proof.
  intros E. pose proof (zlen_nonneg d). pose proof (zlen_nonneg e). unfold splice at 2. rewrite ztake_0, Z.add_0_l. cbn [app].
  unfold splice. rewrite ztake_app_l, ztake_all by lia. rewrite zdrop_all; [now rewrite app_nil_r|].
  rewrite zlen_app, zlen_zdrop. lia.
Qed.

Lemma bytes_ok_text s : text s = true -> bytes_ok s.
Proof.
  unfold text. intros H. apply Forall_forall. intros x Hx. rewrite forallb_forall in H. specialize (H x Hx). unfold byte_ok. lia.
Qed.
Lemma store_string_ok h a id ref v b s : hm h (a ++ mkEntry id ref v :: b) -> bytes_ok s -> zlen s + 1 <= zlen v ->
  exists h', store_string h (length a) s = (h', Ok tt) /\
    hm h' (a ++ mkEntry id ref ((s ++ [0]) ++ zeros (zlen v - zlen (s ++ [0]))) :: b) /\ same_but_meta h h'.
Proof.
  intros H Bs Hl. destruct (slot_at _ _ _ _ _ _ H) as (m & Hm & _ & _ & Es & _). unfold store_string. rewrite Hm.
  pose proof (zlen_nonneg s) as Hs.
  assert (L1 : zlen (s ++ [0]) = zlen s + 1) by (rewrite zlen_app; reflexivity).
  assert (B1 : bytes_ok (s ++ [0])).
  { apply Forall_app. split; auto. constructor; [unfold byte_ok; lia|constructor]. }
  destruct (meta_write_ok h a id ref v b 0 (s ++ [0]) H ltac:(lia) ltac:(lia) B1) as (h1 & E1 & H1 & S1).
  rewrite E1, Es. destruct (Z.ltb_spec (zlen v - zlen s - 1) 0); [lia|].
  assert (L2 : zlen (zeros (zlen v - zlen s - 1)) = zlen v - zlen s - 1) by (rewrite zlen_zeros; lia).
  assert (Lw : zlen (splice 0 (s ++ [0]) v) = zlen v) by (apply zlen_splice; lia).
  destruct (meta_write_ok h1 a id ref (splice 0 (s ++ [0]) v) b (zlen s + 1) (zeros (zlen v - zlen s - 1)) H1 ltac:(lia) ltac:(lia) (bytes_ok_zeros _)) as (h2 & E2 & H2 & S2).
  rewrite E2. exists h2. split; [reflexivity|]. split.
  - rewrite <- L1 in H2 at 1. rewrite splice_two in H2 by lia. rewrite L1. replace (zlen v - (zlen s + 1)) with (zlen v - zlen s - 1) by lia.
    exact H2.
  - eapply same_but_meta_trans; eauto.
Qed.
Lemma set_fixed_ok h a id ref v b n d : hm h (a ++ mkEntry id ref v :: b) -> bytes_ok d -> zlen d = n ->
  (zlen v <> n -> forall x, set_fixed h (length a) n x = (h, Err E_SIZE_ERROR)) /\
  (zlen v = n -> set_fixed h (length a) n None = (h, Err E_FAILED) /\
     exists h', set_fixed h (length a) n (Some d) = (h', Ok tt) /\ hm h' (a ++ mkEntry id ref d :: b) /\ same_but_meta h h').
Proof.
  intros H Bd Hd. destruct (slot_at _ _ _ _ _ _ H) as (m & Hm & _ & _ & Es & _). unfold set_fixed. rewrite Hm, Es. split.
  - intros Hne x. destruct (Z.eqb_spec (zlen v) n); [contradiction|]. reflexivity.
  - intros Hv. rewrite Hv, Z.eqb_refl. cbn [negb]. split; [reflexivity|].
    destruct (meta_write_ok h a id ref v b 0 d H ltac:(lia) ltac:(lia) Bd) as (h1 & E1 & H1 & S1). rewrite E1.
    exists h1. split; [reflexivity|]. rewrite splice_whole in H1 by lia. auto.
Qed.

(* removing one entry *)
Lemma purge_one a id ref v b : NoDup (map e_key (a ++ mkEntry id ref v :: b)) -> Forall (fun e => zlen (e_val e) <= 1920) (a ++ mkEntry id ref v :: b) ->
  purge (has_key id ref) 1920 (a ++ mkEntry id ref v :: b) = a ++ map (trunc_entry (align8 (zlen v))) b.
Proof.
  intros ND F.
  assert (X : forall l cut, ~ In (id, ref) (map e_key l) -> purge (has_key id ref) cut l = map (trunc_entry cut) l).
  { induction l as [|e l IH]; intros cut Hn; [reflexivity|]. cbn [purge map]. cbn [map] in Hn.
    assert (Hk : has_key id ref e = false).
    { unfold has_key. destruct (Z.eqb_spec (e_id e) id); [|reflexivity]. destruct (Z.eqb_spec (e_ref e) ref); [|reflexivity].
      elim Hn. left. unfold e_key. congruence. }
    rewrite Hk, IH; [reflexivity|]. intros C. apply Hn. now right. }
  rewrite map_app in ND. cbn [map e_key e_id e_ref] in ND. apply NoDup_remove_2 in ND.
  assert (Na : ~ In (id, ref) (map e_key a)) by (intros C; apply ND; apply in_or_app; now left).
  assert (Nb : ~ In (id, ref) (map e_key b)) by (intros C; apply ND; apply in_or_app; now right).
  assert (A : forall l, ~ In (id, ref) (map e_key l) -> Forall (fun e => zlen (e_val e) <= 1920) l ->
    forall r, purge (has_key id ref) 1920 (l ++ r) = l ++ purge (has_key id ref) 1920 r).
  { induction l as [|e l IH]; intros Hn Hf r; [reflexivity|]. cbn [app purge]. cbn [map] in Hn. inversion Hf; subst.
    assert (Hk : has_key id ref e = false).
    { unfold has_key. destruct (Z.eqb_spec (e_id e) id); [|reflexivity]. destruct (Z.eqb_spec (e_ref e) ref); [|reflexivity].
      elim Hn. left. unfold e_key. congruence. }
    rewrite Hk, IH; [|intros C; apply Hn; now right|assumption]. rewrite del_value_all by auto. destruct e; reflexivity. }
  apply Forall_app in F as [Fa Fb]. rewrite A by auto. f_equal. cbn [purge].
  unfold has_key at 1. cbn [e_id e_ref e_val]. rewrite !Z.eqb_refl. cbn [andb].
  inversion Fb as [|? ? Fv _]; subst. cbn [e_val] in Fv.
  rewrite X by auto. f_equal. f_equal. unfold align8. pose proof (zlen_nonneg v). lia.
Qed.
Lemma hm_values h live : hm h live -> Forall (fun e => zlen (e_val e) <= 1920) live.
Proof.
  intros [_ M _ _]. apply Forall_forall. intros e He. apply In_nth_error in He as (i & Hi).
  destruct M as (_ & _ & _ & _ & _ & H & _). destruct (H i e Hi) as (B & _). pose proof (meta_end_nonneg (firstn i live)). lia.
Qed.
Lemma hm_nodup h live : hm h live -> NoDup (map e_key live).
Proof. intros [_ M _ _]. apply metas_are_iff in M. tauto. Qed.
Lemma hm_get h live id ref : id <> 0 -> hm h live ->
  get_meta h id ref = match find_index (has_key id ref) live with Some i => Ok i | None => Err E_NOT_FOUND end.
Proof. intros Hid [_ M _ _]. exact (get_meta_live h live id ref Hid M). Qed.
Lemma hm_get_at h a id ref v b : id <> 0 -> hm h (a ++ mkEntry id ref v :: b) -> get_meta h id ref = Ok (length a).
Proof.
  intros Hid H. rewrite (hm_get _ _ _ _ Hid H). pose proof (hm_nodup _ _ H) as N. pose proof (find_key_at a id ref v b N) as E.
  unfold has_key. rewrite E. reflexivity.
Qed.
Lemma set_string_ok h a id ref v b s : 0 < id < 2^32 -> 0 <= ref < 2^32 -> hm h (a ++ mkEntry id ref v :: b) -> bytes_ok s -> zlen s < 65535 ->
  if zlen s + 1 <=? zlen v then
    exists h', set_string h (length a) s = (h', Ok tt) /\
      hm h' (a ++ mkEntry id ref ((s ++ [0]) ++ zeros (zlen v - zlen (s ++ [0]))) :: b) /\ same_but_meta h h'
  else let ms := purge (has_key id ref) 1920 (a ++ mkEntry id ref v :: b) in
    if 1920 <? meta_end ms + zlen (s ++ [0]) then snd (set_string h (length a) s) = Err E_NO_SPACE_LEFT
    else exists h', set_string h (length a) s = (h', Ok tt) /\ hm h' (ms ++ [mkEntry id ref (s ++ [0])]) /\ same_but_meta h h'.
Proof.
  intros Hid Href H Bs Hl. destruct (slot_at _ _ _ _ _ _ H) as (m & Hm & Ei & Er & Es & Bv). unfold set_string. rewrite Hm, Es, Ei, Er.
  pose proof (zlen_nonneg s) as Hs.
  assert (L1 : zlen (s ++ [0]) = zlen s + 1) by (rewrite zlen_app; reflexivity).
  destruct (Z.leb_spec (zlen s + 1) (zlen v)).
  - destruct (Z.gtb_spec (zlen s + 1) (zlen v)); [lia|]. now apply store_string_ok.
  - destruct (Z.gtb_spec (zlen s + 1) (zlen v)); [|lia]. cbn zeta.
    rewrite (hm_get_at h a id ref v b ltac:(lia) H). pose proof (purge_one a id ref v b (hm_nodup _ _ H) (hm_values _ _ H)) as Ep. rewrite Ep.
    pose proof H as [W M R N]. destruct (del_meta_exact h a id ref v b M R) as (h1 & E1 & M1 & S1). rewrite E1.
    destruct (del_meta_wf _ _ _ E1 ltac:(apply (wf_metas h W)) ltac:(apply (wf_metadata h W))) as [Wm Wb].
    pose proof (del_meta_no_ghost _ _ _ E1 N) as N1.
    set (ms := a ++ map (trunc_entry (align8 (zlen v))) b) in *.
    assert (Lms : (length ms <= 30)%nat).
    { unfold ms. rewrite app_length, map_length. rewrite app_length in R. cbn [length] in R. lia. }
    assert (W1 : wf_header h1).
    { rewrite S1. destruct M1 as (X1 & X2 & _). now apply wf_with_metas. }
    assert (Hm1 : hm h1 ms) by (constructor; auto; lia).
    assert (Nin : ~ In (id, ref) (map e_key ms)).
    { pose proof (hm_nodup _ _ H) as ND. rewrite map_app in ND. cbn [map e_key e_id e_ref] in ND. apply NoDup_remove_2 in ND.
      intros C. apply ND. unfold ms in C. rewrite map_app in C. apply in_app_or in C as [C|C]; apply in_or_app; [now left|right].
      rewrite map_map in C. exact C. }
    assert (U : u16 (zlen s + 1) = zlen s + 1) by (unfold u16; rewrite Z.mod_small; lia). rewrite U.
    pose proof (add_meta_spec h1 ms id ref (zlen s + 1) ltac:(lia) M1) as A.
    assert (Hf : find_index (fun e => (e_id e =? id) && (e_ref e =? ref)) ms = None) by now apply find_key_None.
    rewrite Hf in A. destruct (Nat.eqb_spec (length ms) 32); [lia|]. destruct A as (m' & Hm' & Em' & A).
    rewrite A. unfold METADATA_BYTES. rewrite L1.
    destruct (Z.ltb_spec 1920 (meta_end ms + (zlen s + 1))).
    + destruct (Z.gtb_spec (meta_end ms + (zlen s + 1)) 1920); [reflexivity|lia].
    + destruct (Z.gtb_spec (meta_end ms + (zlen s + 1)) 1920); [lia|].
      pose proof (metas_are_add _ _ _ id ref (zlen s + 1) m' ltac:(lia) M1 Hf ltac:(lia) Hm' ltac:(lia) ltac:(lia)) as M2.
      pose proof (add_meta_no_ghost h1 ms id ref (zlen s + 1) ltac:(lia) M1 N1) as N2. rewrite A in N2. cbn [fst] in N2.
      set (h2 := with_meta h1 _) in *. pose proof (meta_end_nonneg ms) as Hme.
      assert (Lv : zlen (slice (meta_end ms) (zlen s + 1) (h_metadata h1)) = zlen s + 1).
      { apply zlen_slice_in; try lia. destruct M1 as (_ & X2 & _). lia. }
      assert (W2 : wf_header h2).
      { replace h2 with (with_metadata (with_meta h1 (h_meta h2)) (h_metadata h1)) by (unfold h2; destruct h1; reflexivity).
        pose proof M2 as (X1 & _). destruct M1 as (_ & X3 & _).
        apply wf_with_metas; auto.
        unfold h2. cbn [h_meta with_meta]. apply Forall_list_upd; [exact Wm|].
        rewrite Forall_forall in Wm. destruct (Wm m' (nth_error_In _ _ Hm')) as (_ & _ & _ & _ & W5 & W6).
        unfold wf_meta, fill. cbn [m_id m_size m_offset m_ref m_pad]. repeat split; auto; lia. }
      assert (Hm2 : hm h2 (ms ++ mkEntry id ref (slice (meta_end ms) (zlen s + 1) (h_metadata h1)) :: [])).
      { constructor; auto. rewrite app_length. cbn [length]. lia. }
      destruct (store_string_ok h2 ms id ref (slice (meta_end ms) (zlen s + 1) (h_metadata h1)) [] s Hm2 Bs ltac:(lia)) as (h3 & E3 & Hm3 & S3).
      rewrite E3. exists h3. split; [reflexivity|]. split.
      * rewrite Lv, L1, Z.sub_diag in Hm3. change (zeros 0) with (@nil Z) in Hm3. rewrite app_nil_r in Hm3. exact Hm3.
      * eapply same_but_meta_trans; [|exact S3].
        assert (Sa : same_but_meta h h1) by exact S1. eapply same_but_meta_trans; [exact Sa|]. unfold h2. destruct h1; reflexivity.
Qed.
