(* PkgDelete.v -- bpak_pkg_delete_part and bpak_pkg_delete_all_parts *)
From Verif Require Import BaseLemmas HeaderModel HeaderSpec CodecProofs PartProofs MetaProofs CrcModel HashModel MerkleModel
  VerifyModel VerifySpec VerifyProofs VerifySign VerifyWitness PkgModel PkgSpec PkgProofs PkgAdd.

(* ---- removing metadata ---- *)
Lemma del_value_del_value a b v : 0 <= a -> 0 <= b -> del_value a (del_value b v) = del_value (Z.min b a) v.
Proof.
  intros Ha Hb. pose proof (zlen_nonneg v) as Hv. unfold del_value at 1. rewrite zlen_del_value by lia.
  unfold del_value. destruct (Z.le_gt_cases a (zlen (ztake b v))).
  - rewrite zlen_ztake in *. rewrite ztake_app_l by (rewrite zlen_ztake; lia).
    rewrite ztake_ztake. replace (Z.min a b) with (Z.min b a) by lia.
    destruct (Z.le_gt_cases (zlen v) a).
    + f_equal. rewrite !zeros_neg by lia. reflexivity.
    + f_equal. f_equal. lia.
  - rewrite zlen_ztake in *. rewrite ztake_app_r by (rewrite zlen_ztake; lia). rewrite zlen_ztake.
    rewrite <- app_assoc. destruct (Z.le_gt_cases a b).
    + assert (zlen v < a) by lia. rewrite (ztake_all b v), (ztake_all (Z.min b a) v) by lia. f_equal.
      rewrite (zeros_neg (zlen v - b)), ztake_nil, !zeros_neg by lia. reflexivity.
    + replace (Z.min b a) with b by lia. f_equal.
      destruct (Z.le_gt_cases (a - Z.max 0 (Z.min b (zlen v))) (zlen v - b)).
      * rewrite ztake_zeros by lia. rewrite zeros_app by lia. f_equal. lia.
      * rewrite ztake_all by (rewrite zlen_zeros; lia). rewrite (zeros_neg (zlen v - a)) by lia. now rewrite app_nil_r.
Qed.
Lemma trunc_trunc a b l : 0 <= a -> 0 <= b -> map (trunc_entry a) (map (trunc_entry b) l) = map (trunc_entry (Z.min b a)) l.
Proof.
  intros Ha Hb. rewrite map_map. apply map_ext. intros e. unfold trunc_entry. cbn [e_id e_ref e_val].
  now rewrite del_value_del_value.
Qed.
Lemma del_value_all a v : zlen v <= a -> del_value a v = v.
Proof. intros H. unfold del_value. rewrite ztake_all, zeros_neg, app_nil_r by lia. reflexivity. Qed.

Lemma del_meta_loop_no_ghost adj : forall rest md l md', del_meta_loop adj rest md = Ok (l, md') ->
  no_ghost_refs rest -> no_ghost_refs l.
Proof.
  induction rest as [|m rest IH]; intros md l md'; cbn [del_meta_loop]; [discriminate|].
  intros E N. inversion N as [|? ? Nm Nr]; subst. destruct (Z.eqb_spec (m_id m) 0).
  - injection E as <- <-. constructor; [exact Nm|constructor; [reflexivity|exact Nr]].
  - destruct (shift_metadata _ _ _ _) as [md1| | |]; try discriminate. cbn [bind] in E.
    destruct (del_meta_loop adj rest md1) as [[l2 md2]| | |] eqn:E2; try discriminate. cbn [bind] in E.
    injection E as <- <-. constructor; [cbn [m_id m_ref]; auto|]. eapply IH; eauto.
Qed.
Lemma del_meta_no_ghost h i h' : del_meta h i = Ok h' -> no_ghost_refs (h_meta h) -> no_ghost_refs (h_meta h').
Proof.
  unfold del_meta. destruct (nth_error (h_meta h) i); [|discriminate].
  destruct (del_meta_loop _ _ _) as [[l md]| | |] eqn:E; try discriminate. cbn [bind]. intros E2. injection E2 as <-.
  intros N. cbn [h_meta with_metadata with_meta]. apply Forall_app. split.
  - now apply Forall_firstn'.
  - eapply del_meta_loop_no_ghost; eauto. now apply Forall_skipn'.
Qed.

Lemma meta_slot_at slots md a e b : metas_are slots md (a ++ e :: b) ->
  exists m, nth_error slots (length a) = Some m /\ m_id m = e_id e /\ m_ref m = e_ref e.
Proof.
  intros (_ & _ & _ & _ & _ & H & _). destruct (H (length a) e) as (_ & _ & m & Hm & E1 & E2 & _).
  - rewrite nth_error_app2, Nat.sub_diag by lia. reflexivity.
  - exists m. auto.
Qed.
(* the loop at slot [length a]: the entries [a] have been passed, [b] are left *)
Lemma remove_meta_spec (rsel : Z -> bool) : rsel 0 = false -> forall b cut a h fuel,
  0 <= cut ->
  metas_are (h_meta h) (h_metadata h) (a ++ map (trunc_entry cut) b) ->
  (length (a ++ b) < 32)%nat -> no_ghost_refs (h_meta h) ->
  (length a + length b <= 32)%nat -> (33 - length a + length b < fuel)%nat ->
  exists h', remove_meta_loop (fun m => rsel (m_ref m)) fuel (length a) h = Ok h' /\
    metas_are (h_meta h') (h_metadata h') (a ++ purge (fun e => rsel (e_ref e)) cut b) /\
    no_ghost_refs (h_meta h') /\
    h' = with_metadata (with_meta h (h_meta h')) (h_metadata h').
Proof.
  intros R0. induction b as [|e b IH]; intros cut a h fuel Hc M Hl N Hle Hfu.
  - cbn [map purge] in *. rewrite app_nil_r in *. cbn [length] in *.
    assert (T : forall k i f, (32 - i = k)%nat -> (length a <= i <= 32)%nat -> (k < f)%nat ->
      remove_meta_loop (fun m => rsel (m_ref m)) f i h = Ok h).
    { induction k as [|k IHk]; intros i f Hi Hai Hf; (destruct f as [|f]; [lia|]); cbn [remove_meta_loop]; unfold MAX_META.
      - replace i with 32%nat by lia. reflexivity.
      - destruct (Nat.eqb_spec i 32); [lia|].
        destruct M as (M1 & _ & _ & _ & _ & _ & M2). destruct (M2 i ltac:(lia)) as (m & Hm & Em).
        rewrite Hm. assert (m_ref m = 0).
        { unfold no_ghost_refs in N. rewrite Forall_forall in N. apply N; auto. eapply nth_error_In; eauto. }
        rewrite H, R0. apply IHk; lia. }
    exists h. split; [apply (T (32 - length a)%nat); lia|]. split; auto. split; auto. destruct h; reflexivity.
  - cbn [map] in M. destruct (meta_slot_at _ _ _ _ _ M) as (m & Hm & Eid & Eref).
    cbn [length] in *. rewrite app_length in Hl. cbn [length] in Hl.
    destruct fuel as [|fuel]; [lia|]. cbn [remove_meta_loop]. unfold MAX_META.
    destruct (Nat.eqb_spec (length a) 32); [lia|]. rewrite Hm, Eref.
    cbn [trunc_entry e_ref purge]. destruct (rsel (e_ref e)).
    + destruct (del_meta_exact h a (e_id e) (e_ref e) (del_value cut (e_val e)) (map (trunc_entry cut) b)) as (h1 & E1 & M1 & Eh); auto.
      { rewrite app_length. cbn [length]. rewrite map_length. lia. }
      rewrite E1. cbn [bind]. rewrite zlen_del_value, trunc_trunc in M1.
      2-4: try (apply align8_nonneg; apply zlen_nonneg); lia.
      destruct (IH (Z.min cut (align8 (zlen (e_val e)))) a h1 fuel) as (h2 & E2 & M2 & N2 & Eh2); auto.
      { pose proof (align8_nonneg (zlen (e_val e)) (zlen_nonneg _)). lia. }
      { rewrite app_length. lia. }
      { eapply del_meta_no_ghost; eauto. }
      { lia. }
      { lia. }
      exists h2. split; auto. split; auto. split; auto. rewrite Eh2, Eh. reflexivity.
    + destruct (IH cut (a ++ [trunc_entry cut e]) h fuel) as (h2 & E2 & M2 & N2 & Eh2); auto.
      { rewrite <- app_assoc. exact M. }
      { rewrite !app_length. cbn [length]. lia. }
      { rewrite app_length. cbn [length]. lia. }
      { rewrite app_length. cbn [length]. lia. }
      exists h2. rewrite app_length in E2. cbn [length] in E2. rewrite Nat.add_1_r in E2. split; auto.
      rewrite <- app_assoc in M2. auto.
Qed.

Lemma trunc_big_id live md slots : metas_are slots md live -> map (trunc_entry 1920) live = live.
Proof.
  intros (_ & _ & _ & _ & _ & H & _). rewrite <- (map_id live) at 2. apply map_ext_in. intros e Hin.
  apply In_nth_error in Hin as (i & Hi). destruct (H i e Hi) as (B & _). destruct e as [id ref v].
  unfold trunc_entry. cbn [e_id e_ref e_val] in *. rewrite del_value_all; [reflexivity|].
  pose proof (meta_end_nonneg (firstn i live)). lia.
Qed.
Lemma remove_meta_ok (rsel : Z -> bool) h live : rsel 0 = false ->
  metas_are (h_meta h) (h_metadata h) live -> (length live < 32)%nat -> no_ghost_refs (h_meta h) ->
  exists h', remove_meta_loop (fun m => rsel (m_ref m)) 100 0 h = Ok h' /\
    metas_are (h_meta h') (h_metadata h') (purge (fun e => rsel (e_ref e)) 1920 live) /\
    no_ghost_refs (h_meta h') /\
    h' = with_metadata (with_meta h (h_meta h')) (h_metadata h').
Proof.
  intros R0 M L N. destruct (remove_meta_spec rsel R0 live 1920 [] h 100) as (h' & E & H'); auto; try lia.
  - rewrite (trunc_big_id _ _ _ M). exact M.
  - cbn [length]. lia.
  - exists h'. split; auto.
Qed.

Lemma shift_metadata_bytes md src dst n md' : shift_metadata md src dst n = Ok md' -> bytes_ok md -> bytes_ok md'.
Proof.
  unfold shift_metadata. destruct (_ || _ || _); [discriminate|]. intros E B. injection E as <-.
  apply bytes_ok_splice; [apply bytes_ok_zeros|]. apply bytes_ok_splice; auto. now apply bytes_ok_slice.
Qed.
Lemma del_meta_loop_wf adj : forall rest md l md', del_meta_loop adj rest md = Ok (l, md') ->
  Forall wf_meta rest -> bytes_ok md -> Forall wf_meta l /\ bytes_ok md'.
Proof.
  induction rest as [|m rest IH]; intros md l md'; cbn [del_meta_loop]; [discriminate|].
  intros E W B. inversion W as [|? ? Wm Wr]; subst. destruct (Z.eqb_spec (m_id m) 0).
  - injection E as <- <-. split; auto. constructor; [exact Wm|constructor; [exact wf_zero_meta|exact Wr]].
  - destruct (shift_metadata _ _ _ _) as [md1| | |] eqn:Es; try discriminate. cbn [bind] in E.
    destruct (del_meta_loop adj rest md1) as [[l2 md2]| | |] eqn:E2; try discriminate. cbn [bind] in E.
    injection E as <- <-. destruct (IH _ _ _ E2 Wr) as [A C]; [eapply shift_metadata_bytes; eauto|].
    split; auto. constructor; auto. destruct Wm as (W1 & W2 & W3 & W4 & W5).
    split; [exact W1|]. split; [exact W2|]. split; [|split; [exact W4|exact W5]].
    cbn [m_offset]. unfold u16. lia.
Qed.
Lemma del_meta_wf h i h' : del_meta h i = Ok h' -> Forall wf_meta (h_meta h) -> bytes_ok (h_metadata h) ->
  Forall wf_meta (h_meta h') /\ bytes_ok (h_metadata h').
Proof.
  unfold del_meta. destruct (nth_error (h_meta h) i); [|discriminate].
  destruct (del_meta_loop _ _ _) as [[l md]| | |] eqn:E; try discriminate. cbn [bind]. intros E2. injection E2 as <-.
  intros W B. cbn [h_meta h_metadata with_metadata with_meta].
  destruct (del_meta_loop_wf _ _ _ _ _ E) as [A C]; auto; [now apply Forall_skipn'|].
  split; auto. apply Forall_app. split; auto. now apply Forall_firstn'.
Qed.
Lemma remove_meta_wf sel : forall fuel i h h', remove_meta_loop sel fuel i h = Ok h' ->
  Forall wf_meta (h_meta h) -> bytes_ok (h_metadata h) -> Forall wf_meta (h_meta h') /\ bytes_ok (h_metadata h').
Proof.
  induction fuel as [|f IH]; intros i h h'; cbn [remove_meta_loop]; [discriminate|].
  destruct (i =? MAX_META)%nat; [intros E; injection E as <-; auto|].
  destruct (nth_error (h_meta h) i) as [m|]; [|discriminate].
  destruct (sel m).
  - destruct (del_meta h i) as [h1| | |] eqn:E; try discriminate. cbn [bind]. intros E2 W B.
    destruct (del_meta_wf _ _ _ E W B). eapply IH; eauto.
  - apply IH.
Qed.
Lemma wf_with_metas h ms md : wf_header h -> length ms = 32%nat -> Forall wf_meta ms -> zlen md = 1920 -> bytes_ok md ->
  wf_header (with_metadata (with_meta h ms) md).
Proof. intros W. destruct W. constructor; cbn; auto. Qed.
Lemma remove_meta_wf_header rsel h h' live : remove_meta_loop rsel 100 0 h = Ok h' -> wf_header h ->
  metas_are (h_meta h') (h_metadata h') live -> h' = with_metadata (with_meta h (h_meta h')) (h_metadata h') ->
  wf_header h'.
Proof.
  intros E W M Eh. destruct (remove_meta_wf _ _ _ _ _ E) as [A B]; [apply (wf_metas h W)|apply (wf_metadata h W)|].
  rewrite Eh. destruct M as (M1 & M2 & _). now apply wf_with_metas.
Qed.

(* ---- moving the data down ---- *)
Lemma move_down_spec (pre : bytes) : forall fuel (todo f : bytes) wr rd (done : bytes), zlen todo < 2^63 -> 0 <= wr <= rd ->
  wr = zlen pre + zlen done -> ztake wr f = pre ++ done -> zdrop rd f = todo -> rd <= zlen f ->
  (zlen todo + 4095) / 4096 <= Z.of_nat fuel ->
  exists f', move_down_loop fuel f rd wr (zlen todo) = Ok f' /\ zlen f' = zlen f /\
    ztake (wr + zlen todo) f' = pre ++ done ++ todo.
Proof.
  induction fuel as [|k IH]; intros todo f wr rd done Ht Hw Ewr Et Ed Hr Hf; cbn [move_down_loop];
    (destruct (Z.eqb_spec (zlen todo) 0) as [E|E];
      [apply zlen_0_nil in E; subst todo; exists f; rewrite ?E, zlen_nil, Z.add_0_r, app_nil_r; auto|]).
  - pose proof (zlen_nonneg todo). lia.
  - pose proof (zlen_nonneg todo) as Hn. unfold CHUNK, fread_at, slice. rewrite Ed.
    set (b := ztake 4096 todo). set (r := zdrop 4096 todo).
    assert (Hs : todo = b ++ r) by (symmetry; apply ztake_zdrop).
    assert (Hb : zlen b = Z.min 4096 (zlen todo)) by (subst b; rewrite zlen_ztake; lia).
    assert (Hl : zlen todo = zlen b + zlen r) by (rewrite Hs, zlen_app; reflexivity).
    assert (Hfl : zlen f = rd + zlen todo).
    { rewrite <- Ed, zlen_zdrop. lia. }
    clearbody b r. rewrite fwrite_at_in by lia.
    unfold u64. rewrite Z.mod_small by lia. replace (zlen todo - zlen b) with (zlen r) by lia.
    destruct (IH r (splice wr b f) (wr + zlen b) (rd + zlen b) (done ++ b)) as (f' & E1 & E2 & E3); try lia.
    + rewrite zlen_app. lia.
    + unfold splice. rewrite Et. rewrite (app_assoc (pre ++ done) b).
      assert (Zp : zlen ((pre ++ done) ++ b) = wr + zlen b) by (rewrite !zlen_app; lia).
      rewrite ztake_app_l by lia. rewrite ztake_all by lia. now rewrite <- app_assoc.
    + unfold splice. assert (Zw : zlen (ztake wr f) = wr) by (rewrite zlen_ztake; lia).
      rewrite zdrop_app_r by lia. rewrite Zw. rewrite zdrop_app_r by lia. rewrite zdrop_zdrop by lia.
      replace (rd + zlen b - wr - zlen b + (wr + zlen b)) with (zlen b + rd) by lia.
      rewrite <- zdrop_zdrop by lia. rewrite Ed, Hs. rewrite zdrop_app_r by lia. now rewrite Z.sub_diag, zdrop_0.
    + rewrite zlen_splice; lia.
    + exists f'. split; auto. split; [rewrite E2, zlen_splice; lia|].
      rewrite <- Z.add_assoc, <- Hl in E3. rewrite E3, Hs, <- app_assoc. reflexivity.
Qed.

(* ---- deleting a part ---- *)
Definition moved (n : Z) (e : parth * bytes) : parth * bytes :=
  (set_p_offset (fst e) (u64 (p_offset (fst e) - n)), snd e).
Lemma shift_offsets_spec n empty : Forall (fun p => p_id p = 0) empty -> forall (b : list (parth * bytes)) acc,
  Forall (fun e : parth * bytes => p_id (fst e) <> 0) b ->
  Forall (fun e : parth * bytes => zlen (snd e) = stored_size (fst e)) b -> Forall wf_part (map fst b) ->
  0 <= acc -> acc + zlen (concat (map snd b)) < 2^63 ->
  shift_offsets n (map fst b ++ empty) acc = (map fst (map (moved n) b) ++ empty, acc + zlen (concat (map snd b))).
Proof.
  intros He. induction b as [|e b IH]; intros acc N S W Ha Hb.
  - cbn [map app concat]. rewrite zlen_nil, Z.add_0_r. destruct empty as [|q r]; [reflexivity|].
    inversion He; subst. cbn [shift_offsets]. replace (p_id q =? 0) with true by lia. reflexivity.
  - inversion N; inversion S; inversion W; subst. cbn [map app shift_offsets fst concat] in *.
    destruct (Z.eqb_spec (p_id (fst e)) 0); [contradiction|]. rewrite zlen_app in *.
    pose proof (zlen_nonneg (concat (map snd b))). pose proof (zlen_nonneg (snd e)).
    rewrite part_size_stored by (auto; lia). rewrite <- H5. unfold u64 at 1. rewrite Z.mod_small by lia.
    rewrite IH by (auto; lia). cbn [fst]. f_equal. lia.
Qed.
Lemma used_size_spec empty : Forall (fun p => p_id p = 0) empty -> forall (b : list (parth * bytes)) acc,
  Forall (fun e : parth * bytes => p_id (fst e) <> 0) b ->
  Forall (fun e : parth * bytes => zlen (snd e) = stored_size (fst e)) b -> Forall wf_part (map fst b) ->
  0 <= acc -> acc + zlen (concat (map snd b)) < 2^63 ->
  used_size acc (map fst b ++ empty) = acc + zlen (concat (map snd b)).
Proof.
  intros He. induction b as [|e b IH]; intros acc N S W Ha Hb.
  - cbn [map app concat]. rewrite zlen_nil, Z.add_0_r. destruct empty as [|q r]; [reflexivity|].
    inversion He; subst. cbn [used_size]. replace (p_id q =? 0) with true by lia. reflexivity.
  - inversion N; inversion S; inversion W; subst. cbn [map app used_size fst concat] in *.
    destruct (Z.eqb_spec (p_id (fst e)) 0); [contradiction|]. rewrite zlen_app in *.
    pose proof (zlen_nonneg (concat (map snd b))). pose proof (zlen_nonneg (snd e)).
    rewrite part_size_stored by (auto; lia). rewrite <- H5. unfold u64. rewrite Z.mod_small by lia.
    rewrite IH by (auto; lia). lia.
Qed.

Lemma del_part_holds p (a : list (parth * bytes)) q c b : holds p (a ++ (q, c) :: b) ->
  del_part (pk_header p) (length a) =
    Ok (with_parts (pk_header p) (map fst a ++ map fst b ++ repeat zero_part (32 - length (a ++ b)))).
Proof.
  intros H. destruct (get_part_at _ _ _ _ _ H) as [_ Hn]. unfold del_part. rewrite Hn.
  pose proof (ho_table _ _ H) as T. rewrite map_app in T. cbn [map fst] in T. rewrite T.
  pose proof (ho_nonzero _ _ H) as N. apply Forall_app in N as [_ N]. inversion N as [|? ? _ Nb]; subst.
  replace (length a) with (length (map (@fst parth bytes) a)) at 1 by apply map_length.
  rewrite <- app_assoc. rewrite firstn_app, firstn_all, Nat.sub_diag, firstn_O, app_nil_r.
  replace (skipn (S (length a)) (map fst a ++ (q :: map fst b) ++ repeat zero_part (32 - length (a ++ (q, c) :: b))))
    with (map fst b ++ repeat zero_part (32 - length (a ++ (q, c) :: b))).
  2:{ rewrite skipn_app, skipn_all2 by (rewrite map_length; lia). rewrite map_length.
      replace (S (length a) - length a)%nat with 1%nat by lia. reflexivity. }
  rewrite del_part_loop_spec.
  - do 4 f_equal. pose proof (ho_count _ _ H) as C. rewrite !app_length in *. cbn [length] in *.
    replace (32 - (length a + length b))%nat with (S (32 - (length a + S (length b)))) by lia. reflexivity.
  - now apply Forall_map.
  - apply table_empty_zero.
Qed.

Lemma moved_sizes n (b : list (parth * bytes)) : Forall (fun e : parth * bytes => zlen (snd e) = stored_size (fst e)) b ->
  Forall (fun e : parth * bytes => zlen (snd e) = stored_size (fst e)) (map (moved n) b).
Proof. intros H. apply Forall_map. eapply Forall_impl; [|exact H]. intros e He. exact He. Qed.
Lemma moved_snd n (b : list (parth * bytes)) : map snd (map (moved n) b) = map snd b.
Proof. rewrite map_map. reflexivity. Qed.
Lemma moved_wf n (b : list (parth * bytes)) : Forall wf_part (map fst b) -> Forall wf_part (map fst (map (moved n) b)).
Proof.
  intros H. rewrite map_map. rewrite Forall_map in *. eapply Forall_impl; [|exact H]. intros e He.
  destruct He as (H1 & H2 & H3 & H4). split; [exact H1|]. split; [exact H2|]. split; [|exact H4].
  cbn [moved fst set_p_offset p_offset]. unfold u64. lia.
Qed.

(* [hd]: the first 4096 bytes of the file, which the header in memory replaces *)
Lemma delete_part_head sha p (hd : bytes) (a : list (parth * bytes)) q c b rm live : good_hash sha -> holds p (a ++ (q, c) :: b) ->
  zlen hd = 4096 ->
  hash_supported (h_hash_kind (pk_header p)) = true ->
  (rm = true -> metas_are (h_meta (pk_header p)) (h_metadata (pk_header p)) live /\ (length live < 32)%nat /\
                no_ghost_refs (h_meta (pk_header p))) ->
  exists p', pkg_delete_part sha (mkPkg (pk_header p) (hd ++ concat (map snd (a ++ (q, c) :: b)))) (p_id q) rm = (p', Ok tt) /\
    holds p' (a ++ map (moved (zlen c)) b) /\ hash_current sha p' (a ++ map (moved (zlen c)) b) /\
    (rm = false -> same_besides_parts (pk_header p) (pk_header p')) /\
    (rm = true -> same_besides_parts_meta (pk_header p) (pk_header p') /\
       metas_are (h_meta (pk_header p')) (h_metadata (pk_header p')) (purge (fun e => e_ref e =? p_id q) 1920 live) /\
       no_ghost_refs (h_meta (pk_header p'))).
Proof.
  intros G H Le Hs Hrm. destruct (get_part_at _ _ _ _ _ H) as [Gp Np]. unfold pkg_delete_part. cbn [pk_header pk_file]. rewrite Gp, Np.
  rewrite (part_offset_at _ _ _ _ _ H). rewrite (del_part_holds _ _ _ _ _ H).
  destruct (entry_wf _ _ (q, c) H (in_elt _ _ _)) as (Wq & Sq & Bq). cbn [fst snd] in *.
  rewrite part_size_stored by (auto; lia). rewrite <- Sq.
  pose proof (ho_bound _ _ H) as B. rewrite (ho_file _ _ H), zlen_app, zlen_enc_header in B by apply (ho_wf _ _ H).
  pose proof (ho_sizes _ _ H) as S. apply Forall_app in S as [Sa Sb]. inversion Sb as [|? ? _ Sb']; subst. clear Sb.
  pose proof (ho_nonzero _ _ H) as N. apply Forall_app in N as [Na Nb]. inversion Nb as [|? ? Nq Nb']; subst. clear Nb.
  cbn [fst] in Nq.
  pose proof (wf_parts_app _ _ _ (ho_wf _ _ H) (ho_table _ _ H)) as W. rewrite map_app in W. apply Forall_app in W as [Wa Wb].
  cbn [map fst] in Wb. inversion Wb as [|? ? _ Wb']; subst. clear Wb.
  set (f := hd ++ concat (map snd (a ++ (q, c) :: b))). assert (F : f = hd ++ concat (map snd (a ++ (q, c) :: b))) by reflexivity.
  clearbody f.
  rewrite map_app, concat_app in F, B. cbn [map concat snd] in F, B. rewrite !zlen_app in B.
  assert (Lf : zlen f = 4096 + zlen (concat (map snd a)) + zlen c + zlen (concat (map snd b))).
  { rewrite F, !zlen_app, Le. lia. }
  pose proof (zlen_nonneg (concat (map snd a))) as Pa. pose proof (zlen_nonneg c) as Pc.
  pose proof (zlen_nonneg (concat (map snd b))) as Pb.
  cbn [h_parts with_parts].
  rewrite skipn_app, skipn_all2 by (rewrite map_length; lia). rewrite map_length, Nat.sub_diag. cbn [skipn app].
  rewrite shift_offsets_spec by (auto using table_empty_zero; lia).
  rewrite firstn_app, map_length, Nat.sub_diag, firstn_O, app_nil_r, <- (map_length (@fst parth bytes) a), firstn_all.
  rewrite with_parts_parts. rewrite Z.add_0_l.
  set (es' := a ++ map (moved (zlen c)) b).
  set (h2 := with_parts (pk_header p) _).
  assert (Hh2 : h_parts h2 = map fst es' ++ repeat zero_part (32 - length es')).
  { subst h2 es'. cbn [h_parts with_parts]. rewrite map_app, <- app_assoc, !app_length, !map_length. reflexivity. }
  assert (W2 : wf_header h2).
  { apply wf_with_parts; [apply (ho_wf _ _ H)| |].
    - rewrite !app_length, !map_length, repeat_length. pose proof (ho_count _ _ H) as C. rewrite app_length in C. cbn [length] in C.
      lia.
    - apply Forall_app. split; auto. apply Forall_app. split; [now apply moved_wf|].
      apply Forall_forall. intros x Hx. apply repeat_spec in Hx as ->. exact wf_zero_part. }
  assert (X : exists h3, (if rm then remove_meta_loop (fun m => m_ref m =? p_id q) 100 0 h2 else Ok h2) = Ok h3 /\
    wf_header h3 /\ h_parts h3 = h_parts h2 /\ h_hash_kind h3 = h_hash_kind h2 /\
    (rm = false -> h3 = h2) /\
    (rm = true -> h3 = with_metadata (with_meta h2 (h_meta h3)) (h_metadata h3) /\
      metas_are (h_meta h3) (h_metadata h3) (purge (fun e => e_ref e =? p_id q) 1920 live) /\ no_ghost_refs (h_meta h3))).
  { destruct rm.
    - destruct (Hrm eq_refl) as (M & Ml & Mg).
      destruct (remove_meta_ok (fun r => r =? p_id q) h2 live) as (h3 & E3 & M3 & G3 & Eh3); auto.
      { apply Z.eqb_neq. lia. }
      exists h3. split; auto. split; [eapply remove_meta_wf_header; eauto|].
      split; [rewrite Eh3; reflexivity|]. split; [rewrite Eh3; reflexivity|]. split; [discriminate|auto].
    - exists h2. split; auto. split; auto. split; auto. split; auto. split; [auto|discriminate]. }
  destruct X as (h3 & -> & W3 & P3 & K3 & X1 & X2).
  assert (U : u64 (4096 + zlen (concat (map snd a))) = 4096 + zlen (concat (map snd a))) by (unfold u64; apply Z.mod_small; lia).
  rewrite U.
  destruct (move_down_spec (hd ++ concat (map snd a)) (Z.to_nat (zlen (concat (map snd b)) / CHUNK + 2))
      (concat (map snd b)) f (4096 + zlen (concat (map snd a))) (4096 + zlen (concat (map snd a)) + zlen c) [])
    as (f1 & Ef & Lf1 & Tf); try lia.
  { rewrite zlen_app, zlen_nil, Le. lia. }
  { rewrite F, app_nil_r, app_assoc, ztake_app_l by (rewrite zlen_app, Le; lia). apply ztake_all. rewrite zlen_app, Le. lia. }
  { rewrite F, app_assoc, zdrop_app_r by (rewrite zlen_app, Le; lia).
    rewrite zlen_app, Le, zdrop_app_r by lia.
    replace (4096 + zlen (concat (map snd a)) + zlen c - (4096 + zlen (concat (map snd a))) - zlen c) with 0 by lia.
    apply zdrop_0. }
  { unfold CHUNK. lia. }
  rewrite Ef.
  assert (Ces : concat (map snd es') = concat (map snd a) ++ concat (map snd b)).
  { subst es'. rewrite map_app, concat_app, moved_snd. reflexivity. }
  destruct (commit_spec sha h3 f1 es' (zdrop (4096 + zlen (concat (map snd a)) + zlen (concat (map snd b))) f1)) as (h' & E & H' & Eh & D); auto.
  { rewrite K3. exact Hs. }
  { subst es'. rewrite app_length, map_length. pose proof (ho_count _ _ H) as C. rewrite app_length in C. cbn [length] in C. lia. }
  { congruence. }
  { subst es'. apply Forall_app. split; auto. apply Forall_map. exact Nb'. }
  { subst es'. pose proof (ho_distinct _ _ H) as Dn. rewrite map_app in Dn. cbn [map] in Dn. apply NoDup_remove_1 in Dn.
    rewrite map_app, map_map. exact Dn. }
  { subst es'. apply Forall_app. split; auto. now apply moved_sizes. }
  { lia. }
  { rewrite Ces. rewrite <- (ztake_zdrop (4096 + zlen (concat (map snd a)) + zlen (concat (map snd b))) f1) at 1.
    rewrite Tf. cbn [app]. rewrite <- !app_assoc. rewrite zdrop_app_r by lia. rewrite Le, Z.sub_diag, zdrop_0. reflexivity. }
  { rewrite Ces, zlen_app. lia. }
  rewrite E. cbn [pk_header pk_file].
  rewrite P3, Hh2, used_size_spec.
  2:{ apply table_empty_zero. }
  2:{ subst es'. apply Forall_app. split; auto. apply Forall_map. exact Nb'. }
  2:{ subst es'. apply Forall_app. split; auto. now apply moved_sizes. }
  2:{ subst es'. rewrite map_app. apply Forall_app. split; auto. now apply moved_wf. }
  2:{ unfold HDR_SIZE. lia. }
  2:{ unfold HDR_SIZE. rewrite Ces, zlen_app. lia. }
  unfold HDR_SIZE.
  pose proof (zlen_enc_header _ (ho_wf _ _ H')) as Le'. cbn [pk_header] in Le'.
  assert (Ft : ftruncate (enc_header h' ++ concat (map snd es') ++
     zdrop (4096 + zlen (concat (map snd a)) + zlen (concat (map snd b))) f1) (4096 + zlen (concat (map snd es')))
     = enc_header h' ++ concat (map snd es')).
  { unfold ftruncate. rewrite app_assoc. rewrite ztake_app_l by (rewrite zlen_app, Le'; lia).
    rewrite ztake_all by (rewrite zlen_app, Le'; lia). rewrite zeros_neg, app_nil_r; [reflexivity|].
    rewrite zlen_app. pose proof (zlen_nonneg (zdrop (4096 + zlen (concat (map snd a)) + zlen (concat (map snd b))) f1)).
    rewrite zlen_app, Le'. lia. }
  rewrite Ft. eexists. split; [reflexivity|]. split; [exact H'|]. split; [exact D|].
  cbn [pk_header]. split; intros R.
  - rewrite (X1 R) in Eh. unfold same_besides_parts. rewrite Eh at 1. rewrite Eh. reflexivity.
  - destruct (X2 R) as (X3 & X4 & X5). split; [|split].
    + unfold same_besides_parts_meta. rewrite Eh. rewrite X3. reflexivity.
    + rewrite Eh. exact X4.
    + rewrite Eh. exact X5.
Qed.

Theorem delete_part_ok sha p (a : list (parth * bytes)) q c b rm live : good_hash sha -> holds p (a ++ (q, c) :: b) ->
  hash_supported (h_hash_kind (pk_header p)) = true ->
  (rm = true -> metas_are (h_meta (pk_header p)) (h_metadata (pk_header p)) live /\ (length live < 32)%nat /\
                no_ghost_refs (h_meta (pk_header p))) ->
  exists p', pkg_delete_part sha p (p_id q) rm = (p', Ok tt) /\
    holds p' (a ++ map (moved (zlen c)) b) /\ hash_current sha p' (a ++ map (moved (zlen c)) b) /\
    (rm = false -> same_besides_parts (pk_header p) (pk_header p')) /\
    (rm = true -> same_besides_parts_meta (pk_header p) (pk_header p') /\
       metas_are (h_meta (pk_header p')) (h_metadata (pk_header p')) (purge (fun e => e_ref e =? p_id q) 1920 live) /\
       no_ghost_refs (h_meta (pk_header p'))).
Proof.
  intros G H. pose proof (delete_part_head sha p (enc_header (pk_header p)) a q c b rm live G H (zlen_enc_header _ (ho_wf _ _ H))) as X.
  rewrite <- (ho_file _ _ H) in X. destruct p. exact X.
Qed.

Theorem delete_part_missing sha p es id rm : holds p es -> id <> 0 ->
  ~ In id (map (fun e : parth * bytes => p_id (fst e)) es) -> pkg_delete_part sha p id rm = (p, Err E_NOT_FOUND).
Proof. intros H Hid N. unfold pkg_delete_part. now rewrite (get_part_none p es id H Hid N). Qed.

Theorem delete_all_ok sha p rm live : good_hash sha -> wf_header (pk_header p) -> 4096 <= zlen (pk_file p) ->
  hash_supported (h_hash_kind (pk_header p)) = true ->
  (rm = true -> metas_are (h_meta (pk_header p)) (h_metadata (pk_header p)) live /\ (length live < 32)%nat /\
                no_ghost_refs (h_meta (pk_header p))) ->
  exists p', pkg_delete_all_parts sha p rm = (p', Ok tt) /\
    holds p' [] /\ zlen (pk_file p') = 4096 /\ hash_current sha p' [] /\
    (rm = false -> same_besides_parts (pk_header p) (pk_header p')) /\
    (rm = true -> same_besides_parts_meta (pk_header p) (pk_header p') /\
       metas_are (h_meta (pk_header p')) (h_metadata (pk_header p')) (purge (fun e => negb (e_ref e =? 0)) 1920 live) /\
       no_ghost_refs (h_meta (pk_header p'))).
Proof.
  intros G Wh Lf Hs Hrm. unfold pkg_delete_all_parts.
  set (h2 := with_parts (pk_header p) (repeat zero_part MAX_PARTS)).
  assert (W2 : wf_header h2).
  { apply wf_with_parts; auto. apply Forall_forall. intros x Hx. apply repeat_spec in Hx as ->. exact wf_zero_part. }
  assert (X : exists h3, (if rm then remove_meta_loop (fun m => negb (m_ref m =? 0)) 100 0 h2 else Ok h2) = Ok h3 /\
    wf_header h3 /\ h_parts h3 = h_parts h2 /\ h_hash_kind h3 = h_hash_kind h2 /\
    (rm = false -> h3 = h2) /\
    (rm = true -> h3 = with_metadata (with_meta h2 (h_meta h3)) (h_metadata h3) /\
      metas_are (h_meta h3) (h_metadata h3) (purge (fun e => negb (e_ref e =? 0)) 1920 live) /\ no_ghost_refs (h_meta h3))).
  { destruct rm.
    - destruct (Hrm eq_refl) as (M & Ml & Mg).
      destruct (remove_meta_ok (fun r => negb (r =? 0)) h2 live) as (h3 & E3 & M3 & G3 & Eh3); auto.
      exists h3. split; auto. split; [eapply remove_meta_wf_header; eauto|].
      split; [rewrite Eh3; reflexivity|]. split; [rewrite Eh3; reflexivity|]. split; [discriminate|auto].
    - exists h2. split; auto. split; auto. split; auto. split; auto. split; [auto|discriminate]. }
  destruct X as (h3 & -> & W3 & P3 & K3 & X1 & X2).
  destruct (commit_spec sha h3 (pk_file p) [] (zdrop 4096 (pk_file p))) as (h' & E & H' & Eh & D); auto.
  { rewrite K3. exact Hs. }
  { cbn [length]. lia. }
  { constructor. }
  { cbn [map concat]. rewrite zlen_nil. lia. }
  rewrite E. cbn [pk_header pk_file]. cbn [map concat app] in *. rewrite app_nil_r in H'.
  pose proof (zlen_enc_header _ (ho_wf _ _ H')) as Le'. cbn [pk_header] in Le'.
  assert (Ft : ftruncate (enc_header h' ++ zdrop 4096 (pk_file p)) HDR_SIZE = enc_header h').
  { unfold ftruncate, HDR_SIZE. rewrite ztake_app_l by lia. rewrite ztake_all by lia. rewrite zeros_neg, app_nil_r; auto.
    rewrite zlen_app. pose proof (zlen_nonneg (zdrop 4096 (pk_file p))). lia. }
  rewrite Ft. eexists. split; [reflexivity|]. split; [exact H'|]. split; [exact Le'|]. split; [exact D|].
  cbn [pk_header]. split; intros R.
  - rewrite (X1 R) in Eh. unfold same_besides_parts. rewrite Eh at 1. rewrite Eh. reflexivity.
  - destruct (X2 R) as (X3 & X4 & X5). split; [|split].
    + unfold same_besides_parts_meta. rewrite Eh. rewrite X3. reflexivity.
    + rewrite Eh. exact X4.
    + rewrite Eh. exact X5.
Qed.
