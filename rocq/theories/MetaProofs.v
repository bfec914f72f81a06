(* MetaProofs.v -- metadata table and metadata block *)
From Verif Require Import BaseLemmas HeaderModel HeaderSpec HeaderOps CodecProofs PartProofs.

Lemma app_inj_length {A} (a b c d : list A) :
  length a = length c -> a ++ b = c ++ d -> a = c /\ b = d.
Proof.
  revert c; induction a as [|x a IH]; destruct c as [|y c]; cbn; intros H E; try discriminate; auto.
  injection E as -> E. apply IH in E as [-> ->]; auto.
Qed.

(* structural counterpart of HeaderSpec.metas_are, starting at offset [off] *)
Fixpoint layout (off : Z) (slots : list metah) (live : list mentry) {struct live} : Prop :=
  match live with
  | [] => Forall (fun m => m_id m = 0) slots
  | e :: live' =>
      match slots with
      | [] => False
      | m :: slots' =>
          m_id m = e_id e /\ m_ref m = e_ref e /\ m_size m = zlen (e_val e) /\ m_offset m = off /\
          layout (off + align8 (zlen (e_val e))) slots' live'
      end
  end.
Fixpoint data_ok (off : Z) (md : bytes) (live : list mentry) : Prop :=
  match live with
  | [] => True
  | e :: live' =>
      off + zlen (e_val e) <= 1920 /\ slice off (zlen (e_val e)) md = e_val e /\
      data_ok (off + align8 (zlen (e_val e))) md live'
  end.

Lemma align8_ge n : n <= align8 n < n + 8.
Proof. unfold align8. lia. Qed.
Lemma align8_mod n : align8 n mod 8 = 0.
Proof. unfold align8. lia. Qed.
Lemma align8_nonneg n : 0 <= n -> 0 <= align8 n.
Proof. unfold align8. lia. Qed.
Lemma meta_end_nonneg l : 0 <= meta_end l.
Proof.
  induction l as [|e l IH]; cbn [meta_end]; [lia|].
  pose proof (align8_nonneg _ (zlen_nonneg (e_val e))). lia.
Qed.
Lemma meta_end_app a b : meta_end (a ++ b) = meta_end a + meta_end b.
Proof. induction a as [|e a IH]; cbn [app meta_end]; lia. Qed.
Lemma meta_end_mod l : meta_end l mod 8 = 0.
Proof.
  induction l as [|e l IH]; cbn [meta_end]; [reflexivity|].
  pose proof (align8_mod (zlen (e_val e))). lia.
Qed.

Lemma layout_nth off slots live :
  layout off slots live <->
  (length live <= length slots)%nat /\
  (forall i e, nth_error live i = Some e ->
     exists m, nth_error slots i = Some m /\ m_id m = e_id e /\ m_ref m = e_ref e /\
               m_size m = zlen (e_val e) /\ m_offset m = off + meta_end (firstn i live)) /\
  (forall i, (length live <= i < length slots)%nat -> exists m, nth_error slots i = Some m /\ m_id m = 0).
Proof.
  revert off slots; induction live as [|e live IH]; intros off slots; cbn [layout].
  - split.
    + intros H. repeat split; [cbn; lia | intros [|i] e; discriminate |].
      intros i Hi. destruct (nth_error slots i) as [m|] eqn:E.
      * exists m. split; auto. eapply Forall_forall in H; [exact H|]. eapply nth_error_In; eauto.
      * apply nth_error_None in E. lia.
    + intros (_ & _ & H). apply Forall_forall. intros m Hm.
      apply In_nth_error in Hm as [i Hi].
      assert (i < length slots)%nat by (apply nth_error_Some; congruence).
      destruct (H i) as (m' & Hm' & Hm0); [cbn; lia|]. congruence.
  - destruct slots as [|m slots].
    + split; [contradiction|]. intros (H & _). cbn in H. lia.
    + rewrite IH. split.
      * intros (H1 & H2 & H3 & H4 & Hlen & Hnth & Hemp). repeat split.
        -- cbn. lia.
        -- intros [|i] e'; cbn [nth_error firstn meta_end].
           ++ intros [= <-]. exists m. repeat split; auto. lia.
           ++ intros Hi. destruct (Hnth i e' Hi) as (m' & ? & ? & ? & ? & ?).
              exists m'. repeat split; auto. lia.
        -- intros [|i] Hi; cbn [length nth_error] in *; [lia|]. apply Hemp. lia.
      * intros (Hlen & Hnth & Hemp). cbn [length] in *.
        destruct (Hnth 0%nat e eq_refl) as (m' & Hm' & ? & ? & ? & Hoff). cbn in Hm', Hoff.
        injection Hm' as <-. repeat split; auto; try lia.
        -- intros i e' Hi. destruct (Hnth (S i) e' Hi) as (m' & ? & ? & ? & ? & Ho).
           exists m'. cbn [firstn meta_end nth_error] in *. repeat split; auto. lia.
        -- intros i Hi. apply (Hemp (S i)). lia.
Qed.
Lemma data_ok_nth off md live :
  data_ok off md live <->
  forall i e, nth_error live i = Some e ->
    let o := off + meta_end (firstn i live) in
    o + zlen (e_val e) <= 1920 /\ slice o (zlen (e_val e)) md = e_val e.
Proof.
  revert off; induction live as [|e live IH]; intros off; cbn [data_ok].
  - split; auto. intros _ [|i] e; discriminate.
  - rewrite IH. split.
    + intros (H1 & H2 & H3) [|i] e'; cbn [nth_error firstn meta_end].
      * intros [= <-]. rewrite Z.add_0_r. auto.
      * intros Hi. specialize (H3 i e' Hi). cbv zeta in *. rewrite Z.add_assoc. exact H3.
    + intros H. split; [|split].
      * specialize (H 0%nat e eq_refl). cbn in H. rewrite Z.add_0_r in H. tauto.
      * specialize (H 0%nat e eq_refl). cbn in H. rewrite Z.add_0_r in H. tauto.
      * intros i e' Hi. specialize (H (S i) e' Hi). cbn [firstn meta_end] in H. cbv zeta in *.
        rewrite Z.add_assoc in H. exact H.
Qed.

Lemma metas_are_iff slots md live :
  metas_are slots md live <->
  length slots = 32%nat /\ zlen md = 1920 /\ NoDup (map e_key live) /\
  Forall (fun e => e_id e <> 0) live /\ layout 0 slots live /\ data_ok 0 md live.
Proof.
  unfold metas_are. rewrite layout_nth, data_ok_nth. cbv zeta. split.
  - intros (H1 & H2 & H3 & H4 & H5 & H6 & H7). rewrite H1. repeat split; auto.
    + intros i e Hi. destruct (H6 i e Hi) as (_ & _ & m & ? & ? & ? & ? & ?). exists m. auto.
    + destruct (H6 i e H) as (? & ? & _). rewrite Z.add_0_l. auto.
    + destruct (H6 i e H) as (? & ? & _). rewrite Z.add_0_l. auto.
  - intros (H1 & H2 & H3 & H4 & (H5 & H6 & H7) & H8). rewrite H1 in *.
    split; [auto|]. split; [auto|]. split; [auto|]. split; [exact H3|]. split; [auto|]. split; [|auto].
    intros i e Hi. destruct (H8 i e Hi) as [? ?]. rewrite Z.add_0_l in *.
    destruct (H6 i e Hi) as (m & ? & ? & ? & ? & ?). repeat split; auto. exists m. auto.
Qed.

Lemma meta_align16_small n : 0 <= n -> align8 n < 65536 -> meta_align16 n = align8 n.
Proof. intros. unfold meta_align16, u16. fold (align8 n). apply Z.mod_small. pose proof (align8_nonneg n). lia. Qed.

Lemma layout_app off slots live1 live2 :
  layout off slots (live1 ++ live2) <->
  exists s1 s2, slots = s1 ++ s2 /\ length s1 = length live1 /\
    layout off s1 live1 /\ layout (off + meta_end live1) s2 live2.
Proof.
  revert off slots; induction live1 as [|e l IH]; intros off slots; cbn [app layout meta_end].
  - rewrite Z.add_0_r. split.
    + intros H. exists [], slots. repeat split; auto.
    + intros (s1 & s2 & -> & Hl & _ & H). destruct s1; [auto|discriminate].
  - destruct slots as [|m slots].
    + split; [contradiction|]. intros (s1 & s2 & E & Hl & _). destruct s1; discriminate.
    + rewrite IH, Z.add_assoc. split.
      * intros (? & ? & ? & ? & s1 & s2 & -> & Hl & H1 & H2).
        exists (m :: s1), s2. cbn [length layout]. repeat split; auto.
      * intros (s1 & s2 & E & Hl & H1 & H2). destruct s1 as [|m' s1]; [discriminate|].
        injection E as <- ->. cbn [layout length] in *. destruct H1 as (?&?&?&?&H1).
        repeat split; auto. exists s1, s2. repeat split; auto.
Qed.
Lemma data_ok_app off md a b :
  data_ok off md (a ++ b) <-> data_ok off md a /\ data_ok (off + meta_end a) md b.
Proof.
  revert off; induction a as [|e a IH]; intros off; cbn [app data_ok meta_end].
  - rewrite Z.add_0_r. tauto.
  - rewrite IH, Z.add_assoc. tauto.
Qed.

(* the aligned end never exceeds the block (1920 is a multiple of 8) *)
Lemma data_ok_end off md live :
  0 <= off -> off mod 8 = 0 -> off <= 1920 -> data_ok off md live -> off + meta_end live <= 1920.
Proof.
  revert off; induction live as [|e l IH]; intros off H0 Hm Hle; cbn [data_ok meta_end]; [lia|].
  intros (H1 & _ & H2). pose proof (zlen_nonneg (e_val e)).
  assert (off + align8 (zlen (e_val e)) <= 1920) by (unfold align8; lia).
  pose proof (align8_mod (zlen (e_val e))). pose proof (align8_nonneg (zlen (e_val e))).
  specialize (IH (off + align8 (zlen (e_val e))) ltac:(lia) ltac:(lia) ltac:(lia) H2). lia.
Qed.

(* ---- get_meta -------------------------------------------------------- *)
Definition key_match (id ref : Z) (m : metah) : bool := (m_id m =? id) && (m_ref m =? ref).
Lemma get_meta_find h id ref :
  get_meta h id ref = match find_index (key_match id ref) (h_meta h) with
                      | Some i => Ok i | None => Err E_NOT_FOUND end.
Proof. reflexivity. Qed.

Lemma find_key_layout off slots live id ref :
  id <> 0 -> layout off slots live ->
  find_index (key_match id ref) slots =
  find_index (fun e => (e_id e =? id) && (e_ref e =? ref)) live.
Proof.
  intros Hid. revert off slots; induction live as [|e l IH]; intros off slots; cbn [layout find_index].
  - intros H. apply find_index_None. eapply Forall_impl; [|exact H]. unfold key_match. cbn. intros m Hm.
    destruct (Z.eqb_spec (m_id m) id); [lia|reflexivity].
  - destruct slots as [|m slots]; [contradiction|]. intros (E1 & E2 & _ & _ & H).
    cbn [find_index]. unfold key_match at 1. rewrite E1, E2.
    destruct ((e_id e =? id) && (e_ref e =? ref)); [reflexivity|]. now rewrite (IH _ _ H).
Qed.
Lemma find_key_Some live id ref i :
  find_index (fun e => (e_id e =? id) && (e_ref e =? ref)) live = Some i ->
  exists a v b, live = a ++ mkEntry id ref v :: b /\ length a = i.
Proof.
  intros H. apply find_index_Some in H as (a & [id' ref' v] & b & -> & <- & Hx & _). cbn in Hx.
  exists a, v, b. split; auto. do 3 f_equal; lia.
Qed.
Lemma find_key_None live id ref :
  find_index (fun e => (e_id e =? id) && (e_ref e =? ref)) live = None <-> ~ In (id, ref) (map e_key live).
Proof.
  rewrite find_index_None. split.
  - intros H Hin. apply in_map_iff in Hin as (e & [= <- <-] & He). rewrite Forall_forall in H.
    specialize (H e He). cbn in H. lia.
  - intros H. apply Forall_forall. intros e He. cbn.
    destruct (Z.eqb_spec (e_id e) id); [|reflexivity]. destruct (Z.eqb_spec (e_ref e) ref); [|reflexivity].
    exfalso. apply H. apply in_map_iff. exists e. split; auto. unfold e_key. congruence.
Qed.
Lemma find_key_at a id ref v b :
  NoDup (map e_key (a ++ mkEntry id ref v :: b)) ->
  find_index (fun e => (e_id e =? id) && (e_ref e =? ref)) (a ++ mkEntry id ref v :: b) = Some (length a).
Proof.
  intros Hnd. apply find_index_split.
  - rewrite map_app in Hnd. cbn in Hnd. apply NoDup_remove_2 in Hnd.
    apply Forall_forall. intros e He. cbn.
    destruct (Z.eqb_spec (e_id e) id); [|reflexivity]. destruct (Z.eqb_spec (e_ref e) ref); [|reflexivity].
    exfalso. apply Hnd. apply in_app_iff. left. apply in_map_iff. exists e. split; auto.
    unfold e_key. cbn. congruence.
  - cbn. lia.
Qed.

(* ---- add_meta -------------------------------------------------------- *)
Definition fill (m : metah) (id ref size off : Z) : metah := mkMeta id size off ref (m_pad m).

Lemma add_meta_loop_spec id ref size md live : forall off slots,
  id <> 0 -> Forall (fun e => e_id e <> 0) live ->
  0 <= off -> off mod 8 = 0 -> off <= 1920 ->
  layout off slots live -> data_ok off md live ->
  add_meta_loop id ref size off slots =
  match find_index (fun e => (e_id e =? id) && (e_ref e =? ref)) live with
  | Some _ => (slots, Err E_EXISTS)
  | None => match skipn (length live) slots with
            | [] => (slots, Err E_NO_SPACE_LEFT)
            | m :: r => (firstn (length live) slots ++ fill m id ref size (off + meta_end live) :: r,
                         if off + meta_end live + size >? METADATA_BYTES
                         then Err E_NO_SPACE_LEFT else Ok (length live))
            end
  end.
Proof.
  induction live as [|e live IH]; intros off slots Hid Hnz Ho Hm Hle; cbn [layout data_ok].
  - intros H _. cbn [find_index length skipn firstn meta_end app]. rewrite Z.add_0_r.
    destruct H as [|m r Hm0 Hr]; [reflexivity|]. cbn [add_meta_loop]. rewrite Hm0. reflexivity.
  - destruct slots as [|m slots]; [contradiction|].
    intros (E1 & E2 & E3 & E4 & H) (D1 & _ & D2). cbn [add_meta_loop find_index].
    inversion Hnz as [|? ? Hez Hnz']; subst. rewrite E1, E2.
    destruct (Z.eqb_spec (e_id e) 0); [contradiction|].
    destruct ((e_id e =? id) && (e_ref e =? ref)); [reflexivity|].
    pose proof (zlen_nonneg (e_val e)).
    assert (Ha : m_offset m + align8 (zlen (e_val e)) <= 1920) by (unfold align8; lia).
    assert (E : meta_align16 (u16 (m_offset m + m_size m)) = m_offset m + align8 (zlen (e_val e))).
    { rewrite E3. unfold u16. rewrite Z.mod_small by lia.
      assert (align8 (m_offset m + zlen (e_val e)) = m_offset m + align8 (zlen (e_val e)))
        by (unfold align8; lia).
      rewrite meta_align16_small; lia. }
    rewrite E. pose proof (align8_mod (zlen (e_val e))). pose proof (align8_nonneg (zlen (e_val e))).
    rewrite (IH _ slots); auto; try lia.
    destruct (find_index _ live); [reflexivity|].
    cbn [length skipn firstn meta_end app]. rewrite Z.add_assoc.
    destruct (skipn (length live) slots) as [|m' r]; [reflexivity|].
    destruct (_ >? _); reflexivity.
Qed.

Lemma layout_length off slots live : layout off slots live -> (length live <= length slots)%nat.
Proof. intros H. now apply layout_nth in H. Qed.

Lemma add_meta_spec h live id ref size :
  id <> 0 -> metas_are (h_meta h) (h_metadata h) live ->
  match find_index (fun e => (e_id e =? id) && (e_ref e =? ref)) live with
  | Some _ => add_meta h id ref size = (h, Err E_EXISTS)
  | None =>
      if (length live =? 32)%nat then add_meta h id ref size = (h, Err E_NO_SPACE_LEFT)
      else exists m, nth_error (h_meta h) (length live) = Some m /\ m_id m = 0 /\
        add_meta h id ref size =
          (with_meta h (list_upd (length live) (fill m id ref size (meta_end live)) (h_meta h)),
           if meta_end live + size >? METADATA_BYTES then Err E_NO_SPACE_LEFT else Ok (length live))
  end.
Proof.
  intros Hid H. pose proof H as H0. apply metas_are_iff in H as (Hlen & Hmd & Hnd & Hnz & Hlay & Hdat).
  unfold add_meta.
  rewrite (add_meta_loop_spec id ref size (h_metadata h) live 0 (h_meta h)); auto; try lia.
  destruct (find_index _ live) eqn:Hf; [destruct h; reflexivity|].
  pose proof (layout_length _ _ _ Hlay) as Hle.
  destruct (Nat.eqb_spec (length live) 32) as [E|E].
  - rewrite skipn_all2 by lia. destruct h; reflexivity.
  - destruct H0 as (_ & _ & _ & _ & _ & _ & Hemp). destruct (Hemp (length live)) as (m & Hm & Hm0); [lia|].
    exists m. split; auto. split; auto. apply nth_error_split in Hm as (a & b & -> & Ha).
    rewrite <- Ha. rewrite skipn_app, Nat.sub_diag, skipn_all. cbn [skipn app].
    rewrite firstn_app, Nat.sub_diag, firstn_all, firstn_O, app_nil_r.
    rewrite list_upd_middle, Z.add_0_l. reflexivity.
Qed.

(* writing a new entry at the end *)
Lemma metas_are_add slots md live id ref size m :
  id <> 0 -> metas_are slots md live ->
  find_index (fun e => (e_id e =? id) && (e_ref e =? ref)) live = None ->
  (length live < 32)%nat -> nth_error slots (length live) = Some m ->
  0 <= size -> meta_end live + size <= 1920 ->
  metas_are (list_upd (length live) (fill m id ref size (meta_end live)) slots) md
            (live ++ [mkEntry id ref (slice (meta_end live) size md)]).
Proof.
  intros Hid H Hf Hroom Hm Hsz Hend. apply metas_are_iff in H as (Hlen & Hmd & Hnd & Hnz & Hlay & Hdat).
  pose proof (meta_end_nonneg live).
  assert (Hv : zlen (slice (meta_end live) size md) = size) by (rewrite zlen_slice; lia).
  apply metas_are_iff. repeat split.
  - now rewrite length_list_upd.
  - auto.
  - rewrite map_app. apply find_key_None in Hf. cbn [map].
    apply NoDup_Add with (a := (id, ref)) (l := map e_key live); [|auto].
    rewrite <- (app_nil_r (map e_key live)) at 1. apply Add_app.
  - apply Forall_app. split; auto.
  - apply layout_app. apply nth_error_split in Hm as (a & b & -> & Ha).
    rewrite <- Ha, list_upd_middle. exists a, (fill m id ref size (meta_end live) :: b).
    assert (Hlay2 : layout 0 (a ++ m :: b) (live ++ [])) by now rewrite app_nil_r.
    apply layout_app in Hlay2 as (s1 & s2 & E & Hl1 & L1 & L2).
    assert (s1 = a /\ s2 = m :: b) as [-> ->].
    { symmetry in E. apply app_inj_length in E as [? ?]; auto. lia. }
    repeat split; auto.
    cbn [layout] in L2. now inversion L2.
  - apply data_ok_app. split; auto. cbn [data_ok e_val]. rewrite Hv. repeat split; auto.
Qed.

(* ---- writes ---------------------------------------------------------- *)
Lemma data_ok_splice_before off md live o d :
  0 <= o -> o + zlen d <= off -> zlen md = 1920 -> off <= 1920 ->
  0 <= off -> off mod 8 = 0 ->
  data_ok off md live -> data_ok off (splice o d md) live.
Proof.
  revert off; induction live as [|e l IH]; intros off Ho Hd Hmd Hoff H0 H8; cbn [data_ok]; auto.
  intros (H1 & H2 & H3). pose proof (zlen_nonneg (e_val e)). pose proof (zlen_nonneg d).
  pose proof (align8_ge (zlen (e_val e))). pose proof (align8_mod (zlen (e_val e))).
  repeat split; auto.
  - rewrite slice_splice_after by lia. auto.
  - apply IH; auto; try lia.
Qed.
Lemma data_ok_splice_after off md live o d :
  0 <= off -> off + meta_end live <= o -> o <= zlen md ->
  data_ok off md live -> data_ok off (splice o d md) live.
Proof.
  revert off; induction live as [|e l IH]; intros off H0 Ho Hmd; cbn [data_ok meta_end]; auto.
  intros (H1 & H2 & H3). pose proof (zlen_nonneg (e_val e)). cbn [meta_end] in Ho.
  pose proof (align8_ge (zlen (e_val e))). pose proof (meta_end_nonneg l).
  repeat split; auto.
  - rewrite slice_splice_before by lia. auto.
  - apply IH; auto; lia.
Qed.
Lemma slice_splice_inside {A} o n k (d l : list A) :
  0 <= o -> 0 <= k -> k + zlen d <= n -> o + n <= zlen l ->
  slice o n (splice (o + k) d l) = splice k d (slice o n l).
Proof.
  intros. pose proof (zlen_nonneg d).
  replace n with (k + (zlen d + (n - k - zlen d))) at 1 by lia.
  rewrite !slice_split by lia.
  rewrite slice_splice_before by lia. rewrite slice_splice_same by lia.
  rewrite slice_splice_after by lia. unfold splice. f_equal; [|f_equal].
  - unfold slice. rewrite ztake_ztake. f_equal. lia.
  - unfold slice. rewrite zdrop_ztake, zdrop_zdrop by lia. f_equal; [lia|]. f_equal. lia.
Qed.

Lemma metas_are_write slots md a id ref v b k d :
  metas_are slots md (a ++ mkEntry id ref v :: b) -> 0 <= k -> k + zlen d <= zlen v ->
  metas_are slots (splice (meta_end a + k) d md) (a ++ mkEntry id ref (splice k d v) :: b).
Proof.
  intros H Hk Hd. apply metas_are_iff in H as (Hlen & Hmd & Hnd & Hnz & Hlay & Hdat).
  apply data_ok_app in Hdat as [Da Db]. cbn [data_ok e_val] in Db. destruct Db as (D1 & D2 & D3).
  rewrite Z.add_0_l in *. pose proof (meta_end_nonneg a). pose proof (zlen_nonneg d). pose proof (zlen_nonneg v).
  assert (Hv : zlen (splice k d v) = zlen v) by (apply zlen_splice; lia).
  apply metas_are_iff. repeat split; auto.
  - rewrite zlen_splice; lia.
  - rewrite map_app in *. exact Hnd.
  - apply Forall_app in Hnz as [N1 N2]. apply Forall_app; split; auto. inversion N2; constructor; auto.
  - apply layout_app in Hlay as (s1 & s2 & -> & Hl & L1 & L2). apply layout_app.
    exists s1, s2. repeat split; auto. cbn [layout e_val e_id e_ref] in *. rewrite Hv. exact L2.
  - pose proof (align8_ge (zlen v)). pose proof (align8_mod (zlen v)). pose proof (meta_end_mod a).
    apply data_ok_app. split.
    + apply data_ok_splice_after; auto; try lia. 
    + cbn [data_ok e_val]. rewrite Hv, !Z.add_0_l. repeat split; auto.
      * rewrite slice_splice_inside by lia. now rewrite D2.
      * apply data_ok_splice_before; auto; unfold align8 in *; try lia.
Qed.

(* ---- del_meta -------------------------------------------------------- *)
Definition trunc_entry (adj : Z) (e : mentry) : mentry :=
  mkEntry (e_id e) (e_ref e) (del_value adj (e_val e)).
Lemma zlen_del_value adj v : 0 <= adj -> zlen (del_value adj v) = zlen v.
Proof. intros. pose proof (zlen_nonneg v). unfold del_value. rewrite zlen_app, zlen_ztake, zlen_zeros. lia. Qed.
Lemma meta_end_trunc adj l : 0 <= adj -> meta_end (map (trunc_entry adj) l) = meta_end l.
Proof.
  intros. induction l as [|e l IH]; cbn [map meta_end trunc_entry e_val]; [reflexivity|].
  rewrite zlen_del_value by lia. lia.
Qed.

(* move one value down by adj, then zero its old place *)
Lemma shift_spec md off adj n :
  zlen md = 1920 -> 0 <= adj <= off -> 0 <= n -> off + n <= 1920 ->
  exists md', shift_metadata md off (off - adj) n = Ok md' /\ zlen md' = 1920 /\
    slice (off - adj) n md' = del_value adj (slice off n md) /\
    (forall o k, 0 <= o -> o + k <= off - adj -> slice o k md' = slice o k md) /\
    (forall o k, off + n <= o -> slice o k md' = slice o k md).
Proof.
  intros Hmd Hadj Hn Hend. unfold shift_metadata, METADATA_BYTES.
  destruct (Z.ltb_spec (off - adj) 0); [lia|].
  destruct (Z.gtb_spec (off + n) 1920); [lia|].
  destruct (Z.gtb_spec (off - adj + n) 1920); [lia|]. cbn [orb].
  set (v := slice off n md). assert (Hv : zlen v = n) by (unfold v; rewrite zlen_slice; lia).
  set (md1 := splice (off - adj) v md).
  assert (Hm1 : zlen md1 = 1920) by (unfold md1; rewrite zlen_splice; lia).
  assert (Hz : zlen (zeros n) = n) by (rewrite zlen_zeros; lia).
  eexists. split; [reflexivity|]. split; [rewrite zlen_splice; lia|]. split; [|split].
  - unfold del_value. fold v. rewrite Hv.
    destruct (Z.le_gt_cases n adj) as [Hle|Hgt].
    + rewrite slice_splice_before by lia. unfold md1. rewrite <- Hv at 1. rewrite slice_splice_same by lia.
      unfold zeros. replace (Z.to_nat (n - adj)) with 0%nat by lia. cbn [repeat].
      rewrite app_nil_r. now rewrite ztake_all by lia.
    + replace n with (adj + (n - adj)) at 1 by lia. rewrite slice_split by lia. f_equal.
      * rewrite slice_splice_before by lia. unfold md1.
        replace (off - adj) with (off - adj + 0) at 2 by lia.
        pose proof (slice_splice_same (off - adj) v md) as E. rewrite Hv in E.
        rewrite Z.add_0_r. replace adj with (Z.min adj n) at 2 by lia.
        transitivity (ztake adj (slice (off - adj) n (splice (off - adj) v md))).
        -- unfold slice at 2. rewrite ztake_ztake. unfold slice. f_equal.
        -- rewrite E by lia. f_equal.
      * replace (off - adj + adj) with off by lia.
        replace (zeros (n - adj)) with (ztake (n - adj) (zeros n)).
        -- transitivity (ztake (n - adj) (slice off n (splice off (zeros n) md1))).
           ++ unfold slice at 2. rewrite ztake_ztake. unfold slice. f_equal. lia.
           ++ rewrite <- Hz at 2. rewrite slice_splice_same by lia. reflexivity.
        -- apply ztake_zeros. lia.
  - intros o k Ho Hk. rewrite slice_splice_before by lia. unfold md1.
    rewrite slice_splice_before by lia. reflexivity.
  - intros o k Ho. rewrite slice_splice_after by lia. unfold md1.
    rewrite slice_splice_after by lia. reflexivity.
Qed.

Lemma data_ok_ext off md md' live :
  (forall o k, off <= o -> slice o k md' = slice o k md) -> 0 <= off ->
  data_ok off md live -> data_ok off md' live.
Proof.
  revert off; induction live as [|e l IH]; intros off Hx H0; cbn [data_ok]; auto.
  intros (H1 & H2 & H3). pose proof (align8_nonneg _ (zlen_nonneg (e_val e))). repeat split; auto.
  - rewrite Hx by lia. auto.
  - apply IH; auto; try lia. intros o k Ho. apply Hx. lia.
Qed.

Lemma data_ok_ext_below off md md' live :
  0 <= off -> (forall o k, off <= o -> o + k <= off + meta_end live -> slice o k md' = slice o k md) ->
  data_ok off md live -> data_ok off md' live.
Proof.
  revert off; induction live as [|e l IH]; intros off H0 Hx; cbn [data_ok meta_end] in *; auto.
  intros (H1 & H2 & H3). pose proof (zlen_nonneg (e_val e)). pose proof (align8_ge (zlen (e_val e))).
  pose proof (meta_end_nonneg l). repeat split; auto.
  - rewrite Hx by lia. auto.
  - apply IH; auto; try lia. intros o k Ho Hk. apply Hx; lia.
Qed.

Lemma del_meta_loop_spec adj : forall b off slots md,
  0 <= adj -> adj mod 8 = 0 -> adj <= off -> off mod 8 = 0 -> off <= 1920 ->
  Forall (fun e => e_id e <> 0) b ->
  layout off slots b -> data_ok off md b -> zlen md = 1920 -> (length b < length slots)%nat ->
  exists slots' md',
    del_meta_loop adj slots md = Ok (slots', md') /\ length slots' = S (length slots) /\
    layout (off - adj) slots' (map (trunc_entry adj) b) /\
    data_ok (off - adj) md' (map (trunc_entry adj) b) /\ zlen md' = 1920 /\
    (forall o k, 0 <= o -> o + k <= off - adj -> slice o k md' = slice o k md).
Proof.
  induction b as [|e b IH]; intros off slots md Ha Ham Hao Hom Hol Hnz; cbn [layout data_ok].
  - intros Hz _ Hmd Hlen. destruct slots as [|m r]; [cbn in Hlen; lia|].
    inversion Hz; subst. cbn [del_meta_loop]. replace (m_id m =? 0) with true by lia.
    exists (m :: zero_meta :: r), md. cbn [map layout data_ok length]. repeat split; auto.
  - destruct slots as [|m slots]; [contradiction|].
    intros (E1 & E2 & E3 & E4 & Hlay) (D1 & D2 & D3) Hmd Hlen. cbn [del_meta_loop].
    inversion Hnz as [|? ? Hez Hnz']; subst.
    replace (m_id m =? 0) with false by lia.
    pose proof (zlen_nonneg (e_val e)). pose proof (align8_ge (zlen (e_val e))).
    pose proof (align8_mod (zlen (e_val e))).
    rewrite E3. 
    destruct (shift_spec md (m_offset m) adj (zlen (e_val e))) as (md1 & Es & Hm1 & S1 & S2 & S3); try lia.
    rewrite Es. cbn [bind].
    set (off' := m_offset m + align8 (zlen (e_val e))) in *.
    assert (Hoff' : off' <= 1920) by (unfold off', align8 in *; lia).
    assert (D3' : data_ok off' md1 b).
    { eapply data_ok_ext; [|unfold off'; lia|exact D3]. intros o k Ho. apply S3. unfold off' in *; lia. }
    destruct (IH off' slots md1) as (s' & md' & Hr & Hl' & Hlay' & Hdat' & Hmd' & Hpre);
      auto; try (unfold off' in *; lia). { cbn [length] in Hlen. lia. }
    rewrite Hr. cbn [bind].
    eexists _, md'. split; [reflexivity|]. split; [cbn; lia|].
    cbn [map layout data_ok trunc_entry e_id e_ref e_val m_id m_ref m_size m_offset].
    rewrite zlen_del_value by lia.
    replace (m_offset m - adj + align8 (zlen (e_val e))) with (off' - adj) by (unfold off'; lia).
    repeat split; auto.
    + unfold u16. apply Z.mod_small. lia.
    + lia.
    + rewrite Hpre by (unfold off'; lia). rewrite S1, D2. reflexivity.
    + intros o k Ho Hk. rewrite Hpre by (unfold off'; lia). apply S2; lia.
Qed.

(* exact behaviour of bpak_del_meta on a consistent, non-full table *)
Lemma del_meta_exact h a id ref v b :
  metas_are (h_meta h) (h_metadata h) (a ++ mkEntry id ref v :: b) ->
  (length (a ++ mkEntry id ref v :: b) < 32)%nat ->
  exists h', del_meta h (length a) = Ok h' /\
    metas_are (h_meta h') (h_metadata h') (a ++ map (trunc_entry (align8 (zlen v))) b) /\
    h' = with_metadata (with_meta h (h_meta h')) (h_metadata h').
Proof.
  intros H Hroom. pose proof H as H0. apply metas_are_iff in H as (Hlen & Hmd & Hnd & Hnz & Hlay & Hdat).
  apply layout_app in Hlay as (s1 & s2 & Hs & Hl & L1 & L2).
  apply data_ok_app in Hdat as [Da Db]. rewrite !Z.add_0_l in *.
  cbn [layout] in L2. destruct s2 as [|m s2]; [contradiction|]. destruct L2 as (E1 & E2 & E3 & E4 & L2).
  cbn [data_ok] in Db. destruct Db as (D1 & D2 & D3). cbn [e_val e_id e_ref] in *.
  pose proof (zlen_nonneg v). pose proof (align8_ge (zlen v)). pose proof (align8_mod (zlen v)).
  pose proof (meta_end_nonneg a). pose proof (meta_end_mod a).
  assert (Hal : meta_align16 (m_size m) = align8 (zlen v)).
  { rewrite E3. apply meta_align16_small; lia. }
  apply Forall_app in Hnz as [Hna Hnb]. inversion Hnb as [|? ? Hid Hnb']; subst.
  unfold del_meta. rewrite Hs, <- Hl, nth_error_app2, Nat.sub_diag by lia. cbn [nth_error].
  replace (skipn (S (length s1)) (s1 ++ m :: s2)) with s2.
  2:{ replace (s1 ++ m :: s2) with ((s1 ++ [m]) ++ s2) by now rewrite <- app_assoc.
      rewrite skipn_app, skipn_all2 by (rewrite app_length; cbn [length]; lia).
      replace (S (length s1) - length (s1 ++ [m]))%nat with 0%nat by (rewrite app_length; cbn [length]; lia).
      reflexivity. }
  rewrite firstn_app, Nat.sub_diag, firstn_all, firstn_O, app_nil_r.
  rewrite Hal.
  destruct (del_meta_loop_spec (align8 (zlen v)) b (meta_end a + align8 (zlen v)) s2 (h_metadata h))
    as (s' & md' & Hr & Hl' & Hlay' & Hdat' & Hmd' & Hpre); auto; try lia.
  { rewrite Hs in Hlen. rewrite app_length in *. cbn [length] in *. lia. }
  rewrite Hr. cbn [bind]. eexists. split; [reflexivity|].
  cbn [h_meta h_metadata with_meta with_metadata]. split; [|reflexivity].
  apply metas_are_iff. rewrite Hs, app_length in Hlen. cbn [length] in Hlen.
  repeat split; auto.
  - rewrite app_length. lia.
  - rewrite map_app in *. cbn [map] in Hnd. apply NoDup_remove_1 in Hnd.
    rewrite map_map. unfold e_key in *. cbn [trunc_entry e_id e_ref]. exact Hnd.
  - apply Forall_app. split; auto. apply Forall_map. auto.
  - apply layout_app. exists s1, s'. repeat split; auto. 
    replace (meta_end a) with (meta_end a + align8 (zlen v) - align8 (zlen v)) by lia. exact Hlay'.
  - apply data_ok_app. rewrite Z.add_0_l. split.
    + apply (data_ok_ext_below 0 (h_metadata h)); auto; [lia|]. intros. apply Hpre; lia.
    + replace (meta_end a) with (meta_end a + align8 (zlen v) - align8 (zlen v)) by lia. exact Hdat'.
Qed.

(* bpak_del_meta runs off the end of the table whenever no empty slot follows *)
Lemma del_meta_loop_full_ub adj rest : forall md,
  Forall (fun m => m_id m <> 0) rest -> del_meta_loop adj rest md = UB.
Proof.
  intros md H. revert md. induction H as [|m' rest' Hm' Hr IH]; intros md'; cbn [del_meta_loop]; [reflexivity|].
  replace (m_id m' =? 0) with false by lia. unfold shift_metadata. destruct (_ || _ || _); cbn [bind]; [reflexivity|].
  now rewrite IH.
Qed.
Lemma del_meta_full_ub h i :
  Forall (fun m => m_id m <> 0) (skipn (S i) (h_meta h)) -> del_meta h i = UB.
Proof.
  intros H. unfold del_meta. destruct (nth_error (h_meta h) i); [|reflexivity].
  now rewrite del_meta_loop_full_ub.
Qed.
