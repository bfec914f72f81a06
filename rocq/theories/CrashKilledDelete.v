(* CrashKilledDelete.v -- what a killed bpak_pkg_delete_part leaves intact *)
From Verif Require Import BaseLemmas HeaderModel HeaderSpec HeaderHistory CodecProofs PartProofs MetaProofs CrcModel CrcProofs HashModel MerkleModel
  VerifyModel VerifySpec VerifyProofs VerifySign VerifyWitness PkgModel PkgSpec PkgProofs PkgAdd PkgDelete PkgHistory PkgApi CrashModel CrashSpec
  CrashProofs CrashDelete CrashMain.

Lemma slice_same (f g : bytes) n pos k : ztake n g = ztake n f -> 0 <= pos -> 0 <= k -> pos + k <= n -> slice pos k g = slice pos k f.
Proof.
  intros E Hp Hk Hn.
  assert (S : forall x : bytes, slice pos k x = slice pos k (ztake n x)).
  { intros x. unfold slice, ztake, zdrop. rewrite skipn_firstn_comm, firstn_firstn. f_equal. lia. }
  rewrite (S g), (S f), E. reflexivity.
Qed.
Lemma extract_prefix p (a : list (parth * bytes)) q (d : bytes) pad (b : list (parth * bytes)) (g : bytes) n :
  holds p (a ++ (q, d ++ zeros pad) :: b) -> Z.testbit (p_flags q) 1 = false -> p_pad_bytes q = pad ->
  4096 + zlen (concat (map snd a)) + zlen (d ++ zeros pad) <= n -> ztake n g = ztake n (pk_file p) -> n <= zlen g ->
  pkg_extract_file (mkPkg (pk_header p) g) (p_id q) = (Some d, Ok tt).
Proof.
  intros H T Hpad Hn Eg Lg. destruct (get_part_at _ _ _ _ _ H) as [G N]. unfold pkg_extract_file. cbn [pk_header pk_file]. rewrite G, N.
  rewrite (part_offset_at _ _ _ _ _ H).
  destruct (entry_wf _ _ (q, d ++ zeros pad) H (in_elt _ _ _)) as (W & S & B). cbn [fst snd] in *.
  pose proof (zlen_nonneg (concat (map snd a))) as Ha. pose proof (zlen_nonneg d) as Hd.
  destruct (Z.ltb_spec (4096 + zlen (concat (map snd a))) 0); [lia|].
  rewrite part_size_stored by (auto; lia).
  assert (Hz : zlen (d ++ zeros pad) = zlen d + pad).
  { rewrite zlen_app, zlen_zeros. destruct W as (_ & _ & _ & _ & W5 & _). lia. }
  assert (0 <= pad) by (destruct W as (_ & _ & _ & _ & W5 & _); lia).
  rewrite Hz in *. rewrite <- S, Hpad. replace (zlen d + pad - pad) with (zlen d) by lia.
  unfold u64. rewrite Z.mod_small by lia.
  rewrite copy_out_spec; try lia.
  - f_equal. f_equal. cbn [app]. rewrite (slice_same (pk_file p) g n) by (auto; lia).
    rewrite (ho_file _ _ H). rewrite map_app, concat_app. cbn [map concat snd].
    rewrite app_assoc. rewrite <- !app_assoc. rewrite (app_assoc (enc_header _)).
    apply slice_app_exact; [|reflexivity].
    rewrite zlen_app, zlen_enc_header by apply (ho_wf _ _ H). lia.
  - unfold CHUNK. lia.
Qed.
Lemma open_prefix sha w p es (g : bytes) n : holds p es -> valid_header (pk_header p) = Ok tt -> 4096 <= n ->
  ztake n g = ztake n (pk_file p) -> n <= zlen g -> pkg_open sha w g = (g, Ok (mkPkg (pk_header p) g)).
Proof.
  intros H V Hn Eg Lg. pose proof (ho_file _ _ H) as F. pose proof (zlen_enc_header _ (ho_wf _ _ H)) as L.
  destruct (open_existing sha w g) as (A & B & _); [lia|].
  assert (D : dec_header (ztake 4096 g) = pk_header p).
  { pose proof (slice_same (pk_file p) g n 0 4096 Eg ltac:(lia) ltac:(lia) ltac:(lia)) as S. rewrite !slice_0 in S. rewrite S.
    rewrite F, ztake_app_l, ztake_all by lia. apply dec_enc_header. apply (ho_wf _ _ H). }
  rewrite D in B. specialize (B (mkPkg (pk_header p) g)). destruct (pkg_open sha w g) as [f r]. cbn [fst snd] in *. subst f.
  f_equal. apply B. split; auto.
Qed.

(* the operations of a delete: data at or behind the deleted part, the header, the cut *)
Lemma move_down_behind_ops n : forall fuel f rd wr left, n <= wr -> Forall (behind n) (move_down_ops fuel f rd wr left).
Proof.
  induction fuel as [|k IH]; intros f rd wr left H; cbn [move_down_ops]; destruct (left =? 0); constructor.
  - exact H.
  - apply IH. pose proof (zlen_nonneg (fread_at f rd CHUNK)). lia.
Qed.
Lemma delete_ops_form sha p (a : list (parth * bytes)) q c b rm : holds p (a ++ (q, c) :: b) ->
  exists ws, Forall (behind (4096 + zlen (concat (map snd a)))) ws /\ (b = [] -> ws = []) /\
    (delete_part_ops sha p (p_id q) rm = ws \/
     exists hb n, delete_part_ops sha p (p_id q) rm = ws ++ [FsHeader hb; FsTrunc n]).
Proof.
  intros H. destruct (get_part_at _ _ _ _ _ H) as [Gp Np]. unfold delete_part_ops. rewrite Gp, Np.
  rewrite (part_offset_at _ _ _ _ _ H). rewrite (del_part_holds _ _ _ _ _ H).
  pose proof (ho_bound _ _ H) as B. pose proof (zlen_nonneg (concat (map snd a))) as Pa.
  assert (U : u64 (4096 + zlen (concat (map snd a))) = 4096 + zlen (concat (map snd a))).
  { unfold u64. apply Z.mod_small. rewrite (ho_file _ _ H), zlen_app, zlen_enc_header, map_app, concat_app, zlen_app in B by apply (ho_wf _ _ H).
    pose proof (zlen_nonneg (concat (map snd ((q, c) :: b)))). lia. }
  rewrite U. destruct (shift_offsets _ _ _) as [tail todo] eqn:Es.
  assert (Tb : b = [] -> todo = 0).
  { intros ->. cbn [h_parts with_parts map app] in Es. rewrite skipn_app, skipn_all2 in Es by (rewrite map_length; lia).
    rewrite map_length, Nat.sub_diag in Es. cbn [skipn app] in Es.
    destruct (repeat zero_part (32 - length (a ++ []))) as [|z0 zr] eqn:Er; [cbn in Es; injection Es as <- <-; reflexivity|].
    assert (z0 = zero_part) by (apply (repeat_spec (32 - length (a ++ []))); rewrite Er; left; reflexivity). subst z0.
    cbn in Es. injection Es as <- <-. reflexivity. } destruct (if rm then _ else _) as [h3| | |].
  2,3,4: exists []; split; [constructor|split; [reflexivity|left; reflexivity]].
  match goal with |- context [move_down_ops ?k ?f ?rd ?wr ?l] => exists (move_down_ops k f rd wr l) end.
  split; [apply move_down_behind_ops; lia|]. split; [intros Eb; rewrite (Tb Eb); destruct (Z.to_nat _); reflexivity|]. unfold header_ops. destruct (pkg_update_hash _ _ _) as [p1 [o|e| |]]; [right|left; reflexivity..].
  eexists. eexists. cbn [app]. reflexivity.
Qed.
Lemma fwrite_grows f pos b : 0 <= pos -> zlen f <= zlen (fwrite_at f pos b).
Proof.
  intros Hp. pose proof (zlen_nonneg f). destruct (Z.le_gt_cases pos (zlen f)) as [Hl|Hg].
  - unfold fwrite_at. destruct (zlen b =? 0); [lia|]. destruct (Z.leb_spec pos (zlen f)); [|lia].
    unfold splice. rewrite !zlen_app, zlen_ztake, zlen_zdrop. pose proof (zlen_nonneg b). lia.
  - unfold fwrite_at. destruct (zlen b =? 0); [lia|]. destruct (Z.leb_spec pos (zlen f)); [lia|].
    rewrite !zlen_app. pose proof (zlen_nonneg b). pose proof (zlen_nonneg (zeros (pos - zlen f))). lia.
Qed.
Lemma replay_grows n : 0 <= n -> forall ops f, Forall (behind n) ops -> zlen f <= zlen (fs_replay f ops).
Proof.
  intros Hn. induction ops as [|o ops IH]; intros f F; [cbn; lia|]. inversion F as [|? ? B F']; subst.
  destruct o as [pos b0|b0|t]; cbn [behind] in B; try contradiction. cbn [fs_replay fold_left]. specialize (IH (fs_apply f (FsData pos b0)) F').
  unfold fs_replay in IH. cbn [fs_apply] in *. pose proof (fwrite_grows f pos b0 ltac:(lia)). lia.
Qed.

Theorem killed_delete sha p fa x fb rm g : good_hash sha -> pkg_inv sha p (fa ++ x :: fb) ->
  crashed false (pk_file p) (delete_part_ops sha p (f_id x) rm) g ->
  (exists p', usable sha g p' (fa ++ fb)) \/
  pkg_open sha false g = (g, Ok (mkPkg (pk_header p) g)) /\
  (forall y, In y fa -> pkg_extract_file (mkPkg (pk_header p) g) (f_id y) = (Some (f_data y), Ok tt)) /\
  (fb = [] -> usable sha g (mkPkg (pk_header p) g) (fa ++ x :: fb)).
Proof.
  intros G I C. pose proof I as [(es & H & O & F) P V Hs M D].
  destruct (Forall2_split _ _ _ _ _ _ F eq_refl) as (a & [q c] & b & -> & F1 & (Fq1 & Fq2 & Fq3) & F2).
  cbn [fst snd] in Fq1, Fq2. rewrite <- Fq2 in C.
  pose proof (pkg_files_bound _ _ _ I) as Bf.
  assert (Lf : zlen (pk_file p) = 4096 + zlen (concat (map snd (a ++ (q, c) :: b)))).
  { rewrite (ho_file _ _ H), zlen_app, zlen_enc_header by apply (ho_wf _ _ H). lia. }
  rewrite map_app, concat_app, zlen_app in Lf. cbn [map concat snd] in Lf. rewrite zlen_app in Lf.
  pose proof (zlen_nonneg (concat (map snd a))) as Pa. pose proof (zlen_nonneg c) as Pc. pose proof (zlen_nonneg (concat (map snd b))) as Pb.
  set (n := 4096 + zlen (concat (map snd a))) in *.
  assert (Old : ztake n g = ztake n (pk_file p) -> n <= zlen g ->
    pkg_open sha false g = (g, Ok (mkPkg (pk_header p) g)) /\
    (forall y, In y fa -> pkg_extract_file (mkPkg (pk_header p) g) (f_id y) = (Some (f_data y), Ok tt))).
  { intros Eg Lg. split; [eapply open_prefix; eauto; lia|]. intros y Hy.
    apply in_split in Hy as (fa1 & fa2 & ->).
    destruct (Forall2_split _ _ _ _ _ _ F1 eq_refl) as (a1 & [qy cy] & a2 & -> & F11 & (Fy1 & Fy2 & Fy3 & Fy4 & Fy5) & F12).
    cbn [fst snd] in *. unfold file_stored in Fy1. rewrite <- Fy2. rewrite <- app_assoc in H. cbn [app] in H. rewrite Fy1 in H.
    eapply (extract_prefix p a1 qy (f_data y) _ _ g n H); auto.
    - rewrite <- app_assoc in P. apply Forall_app in P as [_ P]. cbn [app] in P. inversion P as [|? ? Py _]; subst. rewrite Fy3. exact Py.
    - subst n. rewrite map_app, concat_app. cbn [map concat snd]. rewrite Fy1, !zlen_app.
      pose proof (zlen_nonneg (concat (map snd a2))). lia. }
  destruct (delete_ops_form sha p a q c b rm H) as (ws & B & Bn & Eo).
  assert (Keep : crashed false (pk_file p) ws g -> pkg_open sha false g = (g, Ok (mkPkg (pk_header p) g)) /\
    (forall y, In y fa -> pkg_extract_file (mkPkg (pk_header p) g) (f_id y) = (Some (f_data y), Ok tt)) /\
    (fb = [] -> usable sha g (mkPkg (pk_header p) g) (fa ++ x :: fb))).
  { intros C'. destruct (crashed_behind false n ltac:(lia) (pk_file p) ws g C' B ltac:(lia)) as [Eg Lg].
    destruct (Old Eg Lg) as [O1 O2]. split; [exact O1|]. split; [exact O2|]. intros E. rewrite E in F2. inversion F2 as [Eb|]; subst b.
    rewrite (Bn eq_refl) in C'. apply crashed_nil in C' as ->. pose proof (inv_usable sha p (fa ++ x :: fb) [] G I) as U.
    unfold with_junk in U. rewrite app_nil_r in U. exact U. }
  destruct Eo as [Eo|(hb & m & Eo)]; [rewrite Eo in C; right; exact (Keep C)|].
  rewrite Eo in C. destruct (crashed_app false _ ws [FsHeader hb; FsTrunc m] g C) as [C1|C2]; [right; exact (Keep C1)|].
  inversion C2 as [f0 ops0 E1 E2| |? b1 b2 ops0 Et|f0 o0 ops0 g0 C3 E1 E2]; [|discriminate Et|]; subst.
  - right. apply Keep. clear. generalize (pk_file p). induction ws as [|o ws IH]; intros f; [constructor|]. constructor. apply IH.
  - left. assert (Nz : f_id x <> 0) by (rewrite <- Fq2; pose proof (ho_nonzero _ _ H) as N; apply Forall_app in N as [_ N]; now inversion N).
    assert (Nd : NoDup (map f_id (fa ++ x :: fb))) by (rewrite <- (ids_of _ _ F); apply (ho_distinct _ _ H)).
    pose proof (pkg_step sha p (fa ++ x :: fb) (ODel (f_id x) rm) G I Nz ltac:(cbn [pkg_op_cost]; lia)) as St. cbn [pkg_op_cost run_pkg_op spec_pkg_op] in St.
    assert (Ex : existsb (fun f => f_id f =? f_id x) (fa ++ x :: fb) = true).
    { apply existsb_exists. exists x. split; [apply in_elt|apply Z.eqb_refl]. }
    rewrite Ex in St. pose proof (delete_part_replay sha p (f_id x) rm) as R.
    destruct (pkg_delete_part sha p (f_id x) rm) as [p' y]. destruct St as (_ & -> & I' & L'). cbn [fst snd] in R. specialize (R eq_refl).
    rewrite (filter_first _ _ _ _ eq_refl Nd) in I'. rewrite <- Fq2, Eo, replay_app in R.
    cbn [fs_replay fold_left] in R. fold (fs_replay (pk_file p) ws) in R.
    set (f2 := fs_apply (fs_replay (pk_file p) ws) (FsHeader hb)) in *.
    assert (L2 : zlen (pk_file p) <= zlen f2).
    { subst f2. cbn [fs_apply]. pose proof (replay_grows n ltac:(lia) ws (pk_file p) B).
      pose proof (fwrite_grows (fs_replay (pk_file p) ws) 0 hb ltac:(lia)). lia. }
    pose proof (pkg_files_bound _ _ _ I') as Bf'.
    assert (E2 : f2 = pk_file p' ++ zdrop m f2).
    { cbn [fs_apply] in R. unfold ftruncate in R. assert (Hm : 0 <= m <= zlen f2).
      { pose proof (f_equal zlen R) as Rl. rewrite zlen_app, zlen_ztake, zlen_zeros in Rl. lia. }
      rewrite zeros_neg, app_nil_r in R by lia. rewrite <- R. symmetry. apply ztake_zdrop. }
    apply crashed_trunc in C3 as [-> | ->].
    + eexists. rewrite E2. apply inv_usable; auto.
    + rewrite R. exists (with_junk p' []). rewrite <- (app_nil_r (pk_file p')). apply inv_usable; auto.
Qed.
