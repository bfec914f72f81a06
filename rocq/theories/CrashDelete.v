(* CrashDelete.v -- deleting a part from a package with remains of a killed call behind its last part *)
From Verif Require Import BaseLemmas HeaderModel HeaderSpec HeaderHistory CodecProofs PartProofs MetaProofs CrcModel CrcProofs HashModel MerkleModel
  VerifyModel VerifySpec VerifyProofs VerifySign VerifyWitness PkgModel PkgSpec PkgProofs PkgAdd PkgDelete PkgHistory PkgApi CrashModel CrashSpec CrashProofs.

(* ---- the move loop of bpak_pkg_delete_part never ends with bytes behind the last part ---- *)
Lemma move_down_over fuel : forall f rd wr left, 0 <= wr -> wr <= rd -> rd <= zlen f -> zlen f - rd < left < 2^64 ->
  move_down_loop fuel f rd wr left = Stuck.
Proof.
  induction fuel as [|k IH]; intros f rd wr left Hw Hr Hf Hl; cbn [move_down_loop];
    destruct (Z.eqb_spec left 0); try lia; [reflexivity|].
  assert (Lb : zlen (fread_at f rd CHUNK) = Z.min 4096 (zlen f - rd)).
  { unfold fread_at, CHUNK. rewrite zlen_slice. lia. }
  pose proof (zlen_nonneg (fread_at f rd CHUNK)) as Pb.
  assert (Lw : zlen (fwrite_at f wr (fread_at f rd CHUNK)) = zlen f).
  { rewrite fwrite_at_in by lia. rewrite zlen_splice; lia. }
  unfold u64. rewrite Z.mod_small by lia. apply IH; rewrite ?Lw; lia.
Qed.
Lemma move_down_junk fuel : forall f rd wr left, 0 <= wr -> wr <= rd -> 0 < left -> left mod 4096 <> 0 ->
  rd + left < zlen f -> zlen f < 2^63 -> move_down_loop fuel f rd wr left = Stuck.
Proof.
  induction fuel as [|k IH]; intros f rd wr left Hw Hr Hl Hm Hf Hb; cbn [move_down_loop];
    destruct (Z.eqb_spec left 0); try lia; [reflexivity|].
  assert (Lb : zlen (fread_at f rd CHUNK) = Z.min 4096 (zlen f - rd)).
  { unfold fread_at, CHUNK. rewrite zlen_slice. lia. }
  assert (Lw : zlen (fwrite_at f wr (fread_at f rd CHUNK)) = zlen f).
  { rewrite fwrite_at_in by lia. rewrite zlen_splice; lia. }
  destruct (Z.le_gt_cases left 4096).
  - assert (left < 4096) by (destruct (Z.eq_dec left 4096) as [->|]; [now elim Hm|lia]).
    apply move_down_over; rewrite ?Lw; try lia. unfold u64.
    replace ((left - zlen (fread_at f rd CHUNK)) mod 18446744073709551616) with (left - zlen (fread_at f rd CHUNK) + 18446744073709551616); [lia|].
    symmetry. rewrite <- (Z.mod_add _ 1) by lia. apply Z.mod_small. lia.
  - unfold u64. rewrite Z.mod_small by lia. apply IH; rewrite ?Lw; lia.
Qed.
(* exact: any part that is followed by parts of a total size that is no
   multiple of 4096, in a file with something behind the last part *)
Theorem delete_part_junk_hangs sha p (a : list (parth * bytes)) q c b rm J : holds p (a ++ (q, c) :: b) -> J <> [] ->
  zlen (pk_file p ++ J) < 2^63 -> zlen (concat (map snd b)) mod 4096 <> 0 ->
  (rm = true -> exists live, metas_are (h_meta (pk_header p)) (h_metadata (pk_header p)) live /\ (length live < 32)%nat /\
                no_ghost_refs (h_meta (pk_header p))) ->
  snd (pkg_delete_part sha (with_junk p J) (p_id q) rm) = Stuck /\
  forall fuel, move_down_loop fuel (pk_file p ++ J) (4096 + zlen (concat (map snd a)) + zlen c) (4096 + zlen (concat (map snd a)))
                 (zlen (concat (map snd b))) = Stuck.
Proof.
  intros H Nj Bj Hm Hrm. pose proof (ho_file _ _ H) as F. pose proof (zlen_enc_header _ (ho_wf _ _ H)) as Le.
  rewrite map_app, concat_app in F. cbn [map concat snd] in F.
  pose proof (zlen_nonneg (concat (map snd a))) as Pa. pose proof (zlen_nonneg c) as Pc.
  pose proof (zlen_nonneg (concat (map snd b))) as Pb.
  assert (Pj : 0 < zlen J) by (destruct J; [now elim Nj|rewrite zlen_cons; pose proof (zlen_nonneg J); lia]).
  assert (Lf : zlen (pk_file p) = 4096 + zlen (concat (map snd a)) + zlen c + zlen (concat (map snd b))).
  { rewrite F, !zlen_app, Le. lia. }
  assert (B0 : 0 < zlen (concat (map snd b))).
  { destruct (Z.eq_dec (zlen (concat (map snd b))) 0) as [E|]; [|lia]. rewrite E in Hm. now elim Hm. }
  rewrite zlen_app in Bj.
  assert (St : forall fuel, move_down_loop fuel (pk_file p ++ J) (4096 + zlen (concat (map snd a)) + zlen c) (4096 + zlen (concat (map snd a)))
                 (zlen (concat (map snd b))) = Stuck).
  { intros fuel. apply move_down_junk; rewrite ?zlen_app; lia. }
  split; [|exact St].
  destruct (get_part_at _ _ _ _ _ H) as [Gp Np]. unfold pkg_delete_part. cbn [with_junk pk_header pk_file]. rewrite Gp, Np.
  rewrite (part_offset_at _ _ _ _ _ H). rewrite (del_part_holds _ _ _ _ _ H).
  destruct (entry_wf _ _ (q, c) H (in_elt _ _ _)) as (Wq & Sq & Bq). cbn [fst snd] in *.
  rewrite part_size_stored by (auto; lia). rewrite <- Sq.
  pose proof (ho_sizes _ _ H) as S. apply Forall_app in S as [Sa Sb]. inversion Sb as [|? ? _ Sb']; subst. clear Sb.
  pose proof (ho_nonzero _ _ H) as N. apply Forall_app in N as [Na Nb]. inversion Nb as [|? ? Nq Nb']; subst. clear Nb.
  pose proof (wf_parts_app _ _ _ (ho_wf _ _ H) (ho_table _ _ H)) as W. rewrite map_app in W. apply Forall_app in W as [Wa Wb].
  cbn [map fst] in Wb. inversion Wb as [|? ? _ Wb']; subst. clear Wb.
  cbn [h_parts with_parts].
  rewrite skipn_app, skipn_all2 by (rewrite map_length; lia). rewrite map_length, Nat.sub_diag. cbn [skipn app].
  rewrite shift_offsets_spec by (auto using table_empty_zero; lia).
  set (h2 := with_parts _ _).
  assert (X : exists h3, (if rm then remove_meta_loop (fun m => m_ref m =? p_id q) 100 0 h2 else Ok h2) = Ok h3).
  { destruct rm; [|eauto]. destruct (Hrm eq_refl) as (live & M & Ml & Mg).
    destruct (remove_meta_ok (fun r => r =? p_id q) h2 live) as (h3 & E3 & _); [| | | |eauto]; auto. apply Z.eqb_neq. cbn [fst] in Nq. lia. }
  destruct X as (h3 & ->).
  assert (U : u64 (4096 + zlen (concat (map snd a))) = 4096 + zlen (concat (map snd a))) by (unfold u64; apply Z.mod_small; lia).
  rewrite U, Z.add_0_l, St. reflexivity.
Qed.


(* otherwise the remains are cut off *)
Lemma move_down_behind (J : bytes) : forall fuel (f : bytes) rd wr left f', 0 <= wr -> wr <= rd -> 0 <= left -> left < 2^63 -> rd + left = zlen f -> left mod 4096 = 0 ->
  move_down_loop fuel f rd wr left = Ok f' -> move_down_loop fuel (f ++ J) rd wr left = Ok (f' ++ J).
Proof.
  induction fuel as [|k IH]; intros f rd wr left f' Hw Hr Hl Hb Hf Hm; cbn [move_down_loop];
    destruct (Z.eqb_spec left 0); try discriminate; [now intros [= <-]..|].
  assert (4096 <= left) by (destruct (Z.le_gt_cases 4096 left); [lia|rewrite Z.mod_small in Hm by lia; lia]).
  pose proof (zlen_nonneg J) as Pj.
  assert (Eb : fread_at (f ++ J) rd CHUNK = fread_at f rd CHUNK).
  { unfold fread_at, slice, CHUNK. rewrite zdrop_app_l by lia. rewrite ztake_app_l; [reflexivity|]. rewrite zlen_zdrop. lia. }
  assert (Lb : zlen (fread_at f rd CHUNK) = 4096) by (unfold fread_at, CHUNK; rewrite zlen_slice; lia).
  rewrite Eb. set (bb := fread_at f rd CHUNK) in *. clearbody bb.
  assert (Ew : fwrite_at (f ++ J) wr bb = fwrite_at f wr bb ++ J).
  { rewrite !fwrite_at_in by (rewrite ?zlen_app; lia). unfold splice. rewrite ztake_app_l by lia. rewrite zdrop_app_l by lia.
    now rewrite <- !app_assoc. }
  rewrite Ew. unfold u64. rewrite Z.mod_small by lia. apply IH; try lia.
  rewrite fwrite_at_in by lia. rewrite zlen_splice; lia.
Qed.
Theorem delete_part_junk_gone sha p (a : list (parth * bytes)) q c b rm J : good_hash sha -> holds p (a ++ (q, c) :: b) ->
  hash_supported (h_hash_kind (pk_header p)) = true ->
  (rm = true -> exists live, metas_are (h_meta (pk_header p)) (h_metadata (pk_header p)) live /\ (length live < 32)%nat /\
                no_ghost_refs (h_meta (pk_header p))) ->
  zlen (concat (map snd b)) mod 4096 = 0 ->
  pkg_delete_part sha (with_junk p J) (p_id q) rm = pkg_delete_part sha p (p_id q) rm.
Proof.
  intros G H Hs Hrm Hmod. destruct (get_part_at _ _ _ _ _ H) as [Gp Np]. unfold pkg_delete_part. cbn [with_junk pk_header pk_file]. rewrite Gp, Np.
  rewrite (part_offset_at _ _ _ _ _ H). rewrite (del_part_holds _ _ _ _ _ H).
  destruct (entry_wf _ _ (q, c) H (in_elt _ _ _)) as (Wq & Sq & Bq). cbn [fst snd] in *.
  rewrite part_size_stored by (auto; lia). rewrite <- Sq.
  pose proof (ho_bound _ _ H) as B. pose proof (ho_file _ _ H) as F. pose proof (zlen_enc_header _ (ho_wf _ _ H)) as Le.
  pose proof (ho_sizes _ _ H) as S. apply Forall_app in S as [Sa Sb]. inversion Sb as [|? ? _ Sb']; subst. clear Sb.
  pose proof (ho_nonzero _ _ H) as N. apply Forall_app in N as [Na Nb]. inversion Nb as [|? ? Nq Nb']; subst. clear Nb.
  cbn [fst] in Nq.
  pose proof (wf_parts_app _ _ _ (ho_wf _ _ H) (ho_table _ _ H)) as W. rewrite map_app in W. apply Forall_app in W as [Wa Wb].
  cbn [map fst] in Wb. inversion Wb as [|? ? _ Wb']; subst. clear Wb.
  rewrite map_app, concat_app in F. cbn [map concat snd] in F.
  assert (Lf : zlen (pk_file p) = 4096 + zlen (concat (map snd a)) + zlen c + zlen (concat (map snd b))).
  { rewrite F, !zlen_app, Le. lia. }
  pose proof (zlen_nonneg (concat (map snd a))) as Pa. pose proof (zlen_nonneg c) as Pc.
  pose proof (zlen_nonneg (concat (map snd b))) as Pb.
  cbn [h_parts with_parts].
  rewrite skipn_app, skipn_all2 by (rewrite map_length; lia). rewrite map_length, Nat.sub_diag. cbn [skipn app].
  rewrite shift_offsets_spec by (auto using table_empty_zero; lia).
  rewrite firstn_app, map_length, Nat.sub_diag, firstn_O, app_nil_r, <- (map_length (@fst parth bytes) a), firstn_all.
  rewrite with_parts_parts. rewrite Z.add_0_l.
  set (es' := a ++ map (moved (zlen c)) b).
  set (h2 := with_parts (pk_header p) _).
  assert (Hh2 : h_parts h2 = map fst es' ++ repeat zero_part (32 - length es')).
  { subst h2 es'. cbn [h_parts with_parts]. rewrite map_app, <- app_assoc, !app_length, !map_length. reflexivity. }
  assert (W2 : wf_header h2).
  { apply wf_with_parts; [apply (ho_wf _ _ H)| |].
    - rewrite !app_length, !map_length, repeat_length. pose proof (ho_count _ _ H) as C. rewrite app_length in C. cbn [length] in C.
      lia.
    - apply Forall_app. split; auto. apply Forall_app. split; [now apply moved_wf|].
      apply Forall_forall. intros x Hx. apply repeat_spec in Hx as ->. exact wf_zero_part. }
  assert (X : exists h3, (if rm then remove_meta_loop (fun m => m_ref m =? p_id q) 100 0 h2 else Ok h2) = Ok h3 /\
    wf_header h3 /\ h_parts h3 = h_parts h2 /\ h_hash_kind h3 = h_hash_kind h2).
  { destruct rm.
    - destruct (Hrm eq_refl) as (live & M & Ml & Mg).
      destruct (remove_meta_ok (fun r => r =? p_id q) h2 live) as (h3 & E3 & M3 & G3 & Eh3); auto.
      { apply Z.eqb_neq. lia. }
      exists h3. split; auto. split; [eapply remove_meta_wf_header; eauto|].
      split; rewrite Eh3; reflexivity.
    - exists h2. split; auto. }
  destruct X as (h3 & -> & W3 & P3 & K3).
  assert (U : u64 (4096 + zlen (concat (map snd a))) = 4096 + zlen (concat (map snd a))) by (unfold u64; apply Z.mod_small; lia).
  rewrite U.
  destruct (move_down_spec (enc_header (pk_header p) ++ concat (map snd a)) (Z.to_nat (zlen (concat (map snd b)) / CHUNK + 2))
      (concat (map snd b)) (pk_file p) (4096 + zlen (concat (map snd a))) (4096 + zlen (concat (map snd a)) + zlen c) [])
    as (f1 & Ef & Lf1 & Tf); try lia.
  { rewrite zlen_app, zlen_nil, Le. lia. }
  { rewrite F, app_nil_r, app_assoc, ztake_app_l by (rewrite zlen_app, Le; lia). apply ztake_all. rewrite zlen_app, Le. lia. }
  { rewrite F, app_assoc, zdrop_app_r by (rewrite zlen_app, Le; lia).
    rewrite zlen_app, Le, zdrop_app_r by lia.
    replace (4096 + zlen (concat (map snd a)) + zlen c - (4096 + zlen (concat (map snd a))) - zlen c) with 0 by lia.
    apply zdrop_0. }
  { unfold CHUNK. lia. }
  assert (Lb3 : zlen (concat (map snd b)) < 2^63) by lia.
  pose proof (move_down_behind J _ (pk_file p) (4096 + zlen (concat (map snd a)) + zlen c) (4096 + zlen (concat (map snd a)))
    (zlen (concat (map snd b))) f1 ltac:(lia) ltac:(lia) Pb Lb3 ltac:(lia) Hmod Ef) as EfJ. rewrite EfJ, Ef.
  assert (Ces : concat (map snd es') = concat (map snd a) ++ concat (map snd b)).
  { subst es'. rewrite map_app, concat_app, moved_snd. reflexivity. }
  destruct (commit_spec sha h3 f1 es' (zdrop (4096 + zlen (concat (map snd a)) + zlen (concat (map snd b))) f1)) as (h' & E & H' & Eh & D); auto.
  { rewrite K3. exact Hs. }
  { subst es'. rewrite app_length, map_length. pose proof (ho_count _ _ H) as C. rewrite app_length in C. cbn [length] in C. lia. }
  { congruence. }
  { subst es'. apply Forall_app. split; auto. apply Forall_map. exact Nb'. }
  { subst es'. pose proof (ho_distinct _ _ H) as Dn. rewrite map_app in Dn. cbn [map] in Dn. apply NoDup_remove_1 in Dn.
    rewrite map_app, map_map. exact Dn. }
  { subst es'. apply Forall_app. split; auto. now apply moved_sizes. }
  { lia. }
  { rewrite Ces. rewrite <- (ztake_zdrop (4096 + zlen (concat (map snd a)) + zlen (concat (map snd b))) f1) at 1.
    rewrite Tf. cbn [app]. rewrite <- !app_assoc. rewrite zdrop_app_r by lia. rewrite Le, Z.sub_diag, zdrop_0. reflexivity. }
  { rewrite Ces, zlen_app. lia. }
  assert (Sz : sizes_ok (h_parts h3)).
  { rewrite P3, Hh2. replace (map fst es' ++ repeat zero_part (32 - length es')) with (table (map fst es')) by (unfold table; now rewrite map_length).
    apply sizes_of.
    - subst es'. apply Forall_app. split; auto. now apply moved_sizes.
    - subst es'. rewrite map_app. apply Forall_app. split; auto. now apply moved_wf.
    - rewrite Ces, zlen_app. lia. }
  rewrite (hash_and_write_junk sha h3 f1 J _ W3 Sz ltac:(rewrite K3; exact Hs) G ltac:(lia) E).
  rewrite E. cbn [pk_header pk_file].
  rewrite P3, Hh2, used_size_spec.
  2:{ apply table_empty_zero. }
  2:{ subst es'. apply Forall_app. split; auto. apply Forall_map. exact Nb'. }
  2:{ subst es'. apply Forall_app. split; auto. now apply moved_sizes. }
  2:{ subst es'. rewrite map_app. apply Forall_app. split; auto. now apply moved_wf. }
  2:{ unfold HDR_SIZE. lia. }
  2:{ unfold HDR_SIZE. rewrite Ces, zlen_app. lia. }
  unfold HDR_SIZE.
  pose proof (zlen_enc_header _ (ho_wf _ _ H')) as Le'. cbn [pk_header] in Le'.
  do 2 f_equal. unfold ftruncate. pose proof (zlen_nonneg J).
  pose proof (zlen_nonneg (zdrop (4096 + zlen (concat (map snd a)) + zlen (concat (map snd b))) f1)).
  match goal with |- ztake ?n (?x ++ J) ++ _ = _ => set (X := x); assert (LX : n <= zlen X) end.
  { subst X. rewrite !zlen_app, Le'. rewrite Ces, zlen_app in *. lia. }
  clearbody X. rewrite ztake_app_l by lia. f_equal.
  rewrite !zeros_neg; [reflexivity| |]; rewrite ?zlen_app; lia.
Qed.
