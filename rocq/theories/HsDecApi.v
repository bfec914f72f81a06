(* HsDecApi.v -- the decoder under every schedule of calls *)
From Verif Require Import Base BaseLemmas HsSpec HsBits HsModel HsDecoder.
From Coq Require Import Lia.

Lemma tokens_prefix ts l : Forall token_ok ts -> exists r, Forall token_ok r /\ tokens (tbits ts ++ l) = ts ++ r.
Proof. intros H. exists (tokens l). split; [apply tokens_ok|]. apply tokens_app; exact H. Qed.
Lemma expand_app ts r : exists x, expand (ts ++ r) = expand ts ++ x.
Proof.
  assert (E : exists x, hist (ts ++ r) = hist ts ++ x).
  { unfold hist. rewrite fold_left_app. apply fold_expand_app. }
  destruct E as [x E]. exists x. rewrite !hist_expand, <- app_assoc in E. apply app_inv_head in E. exact E.
Qed.
Lemma dinv_prefix d S O P : dinv d S O P -> exists x, hs_decode S = O ++ x.
Proof.
  intros (R & W & ts & Ht & I). rewrite hs_decode_tokens. destruct (d_st d) eqn:St.
  - destruct I as [-> ->]. destruct (tokens_prefix ts P Ht) as (r & _ & ->). apply expand_app.
  - destruct I as [-> ->]. destruct (tokens_prefix ts (true :: P) Ht) as (r & _ & ->). apply expand_app.
  - destruct I as [-> [-> _]]. destruct (tokens_prefix ts (false :: P) Ht) as (r & _ & ->). apply expand_app.
  - destruct I as [-> [-> _]]. destruct (tokens_prefix ts (false :: to_bits 8 (d_oidx d - 1) ++ P) Ht) as (r & _ & ->). apply expand_app.
  - destruct I as (n & TO & -> & I2 & I3).
    assert (Ht2 : Forall token_ok (ts ++ [Ref (d_oidx d) n])) by (apply Forall_app; split; [exact Ht|]; constructor; [exact TO|constructor]).
    destruct (tokens_prefix _ P Ht2) as (r & _ & ->). destruct (expand_app (ts ++ [Ref (d_oidx d) n]) r) as [x ->].
    destruct (repeat_back_app (Z.to_nat (d_ocnt d)) (d_oidx d) (zeros 256 ++ O)) as [y E]. rewrite I3, hist_expand, <- app_assoc in E.
    apply app_inv_head in E. rewrite E, <- app_assoc. eexists; reflexivity.
Qed.
Lemma dinv_waiting d S O P : dinv d S O P -> waiting d P -> hs_decode S = O.
Proof.
  intros (R & W & ts & Ht & I) Wt. rewrite hs_decode_tokens. unfold waiting in Wt. destruct (d_st d) eqn:St.
  - destruct I as [-> ->]. unfold tbits. rewrite tokens_app, tokens_incomplete, app_nil_r by (subst; cbn; auto). reflexivity.
  - destruct I as [-> ->]. unfold tbits. rewrite tokens_app, tokens_incomplete, app_nil_r by (cbn; auto). reflexivity.
  - destruct I as [-> [-> _]]. unfold tbits. rewrite tokens_app, tokens_incomplete, app_nil_r by (cbn; auto; lia). reflexivity.
  - destruct I as [-> [-> _]]. unfold tbits.
    rewrite tokens_app, tokens_incomplete, app_nil_r; auto. cbn [incomplete]. rewrite app_length, to_bits_length. lia.
  - contradiction.
Qed.

Lemma d_sink_ok d S O P b : dinv d S O P ->
  exists d1 n, d_sink d b = (d1, n) /\ n = Z.min (256 - d_isz d) (zlen b) /\ 0 <= n <= zlen b /\
    d_isz d1 = d_isz d + n /\ exists P1, dinv d1 (S ++ ztake n b) O P1.
Proof.
  intros (R & W & ts & Ht & I). pose proof R as (RI & R1 & R2 & k & Hk & Hb & HP). unfold d_sink.
  pose proof (zlen_nonneg b) as Nb.
  destruct (Z.eqb_spec (256 - d_isz d) 0) as [F|F].
  { exists d, 0. split; [reflexivity|]. split; [lia|]. split; [lia|]. split; [lia|]. exists P.
    change (ztake 0 b) with (@nil Z). rewrite app_nil_r. split; [exact R|]. split; [exact W|]. exists ts. auto. }
  set (n := if 256 - d_isz d <? zlen b then 256 - d_isz d else zlen b).
  assert (Hn : n = Z.min (256 - d_isz d) (zlen b)) by (unfold n; destruct (Z.ltb_spec (256 - d_isz d) (zlen b)); lia).
  clearbody n. eexists _, n. split; [reflexivity|]. split; [exact Hn|]. split; [lia|]. split; [reflexivity|].
  set (x := ztake n b). assert (Lx : zlen x = n) by (unfold x; rewrite zlen_ztake; lia).
  exists (P ++ bits_of x).
  set (d1 := mkD _ _ _ _ _ _ _ _ _ _).
  assert (Dr : drel d1 (P ++ bits_of x)).
  { unfold drel, d1. cbn [d_isz d_iidx d_in d_bit d_cur].
    split; [lia|]. split; [lia|]. split; [unfold splice; rewrite !zlen_app, zlen_ztake, zlen_zdrop, Lx; lia|].
    exists k. split; [exact Hk|]. split; [exact Hb|]. rewrite HP, <- app_assoc. f_equal. rewrite <- bits_of_app. f_equal.
    assert (E : splice (d_isz d) x (d_in d) = ztake (d_iidx d) (d_in d) ++ (slice (d_iidx d) (d_isz d - d_iidx d) (d_in d) ++ x) ++ zdrop (d_isz d + n) (d_in d)).
    { unfold splice. rewrite Lx.
      assert (E : ztake (d_isz d) (d_in d) = ztake (d_iidx d) (d_in d) ++ slice (d_iidx d) (d_isz d - d_iidx d) (d_in d)).
      { replace (d_isz d) with (d_iidx d + (d_isz d - d_iidx d)) at 1 by lia. apply ztake_plus; lia. }
      rewrite E, <- !app_assoc. reflexivity. }
    rewrite E. unfold slice at 2.
    assert (L1 : zlen (ztake (d_iidx d) (d_in d)) = d_iidx d) by (rewrite zlen_ztake; lia).
    rewrite zdrop_pre by (unfold zlen in L1; lia).
    symmetry. apply ztake_pre. rewrite app_length. unfold zlen in Lx.
    assert (L2 : zlen (slice (d_iidx d) (d_isz d - d_iidx d) (d_in d)) = d_isz d - d_iidx d) by (apply zlen_slice_in; lia).
    unfold zlen in L2. lia. }
  split; [exact Dr|]. split; [exact W|]. exists ts. split; [exact Ht|]. rewrite bits_of_app.
  unfold d1. cbn [d_st d_oidx d_ocnt]. destruct (d_st d) eqn:St.
  - destruct I as [-> ->]. rewrite <- app_assoc. auto.
  - destruct I as [-> ->]. rewrite <- app_assoc. auto.
  - destruct I as [-> [-> ?]]. rewrite <- app_assoc. auto.
  - destruct I as [-> [-> ?]]. rewrite <- app_assoc. cbn [app]. rewrite <- app_assoc. auto.
  - destruct I as (m & TO & -> & I2 & I3). exists m. rewrite <- app_assoc. auto.
Qed.

Lemma d_run_ok ops : forall d S O P, dinv d S O P -> Forall (fun o => match o with DPoll n => 0 <= n | _ => True end) ops ->
  exists d1 S1 O1 P1, d_run d ops = Ok (d1, S1, O1) /\ dinv d1 (S ++ S1) (O ++ O1) P1.
Proof.
  induction ops as [|op ops IH]; intros d S O P I F.
  - exists d, [], [], P. rewrite !app_nil_r. auto.
  - apply Forall_cons_iff in F as [F1 F2]. cbn [d_run]. destruct op as [b|osz].
    + destruct (d_sink_ok d S O P b I) as (d1 & n & E & _ & _ & _ & P1 & I1). rewrite E.
      destruct (IH d1 _ _ P1 I1 F2) as (d2 & S2 & O2 & P2 & E2 & I2). rewrite E2. cbn [bind fst snd].
      eexists _, _, _, P2. split; [reflexivity|]. rewrite app_assoc. exact I2.
    + destruct (d_poll_ok osz d S O P I F1) as (d1 & out & P1 & more & E & I1 & _). rewrite E. cbn [bind fst snd].
      destruct (IH d1 _ _ P1 I1 F2) as (d2 & S2 & O2 & P2 & E2 & I2). rewrite E2. cbn [bind fst snd].
      eexists _, _, _, P2. split; [reflexivity|]. rewrite app_assoc. exact I2.
Qed.

(* every schedule: the output is a prefix of the specified one, and all of it
   once a poll reports that it needs more input *)
Lemma decoder_schedules ops : Forall (fun o => match o with DPoll n => 0 <= n | _ => True end) ops ->
  exists d S O, d_run d_reset ops = Ok (d, S, O) /\ (exists x, hs_decode S = O ++ x) /\
    forall osz, 0 <= osz -> exists d1 out more, d_poll osz d = Ok (d1, out, more) /\ zlen out <= osz /\
      (exists x, hs_decode S = O ++ out ++ x) /\
      (more = false -> hs_decode S = O ++ out) /\ (more = true -> zlen out = osz).
Proof.
  intros F. destruct (d_run_ok ops d_reset [] [] [] dinv_reset F) as (d & S & O & P & E & I). cbn [app] in I.
  exists d, S, O. split; [exact E|]. split; [exact (dinv_prefix _ _ _ _ I)|]. intros osz Ho.
  destruct (d_poll_ok osz d S O P I Ho) as (d1 & out & P1 & more & E1 & I1 & L & M & Wt).
  exists d1, out, more. split; [exact E1|]. split; [exact L|]. split.
  { destruct (dinv_prefix _ _ _ _ I1) as [x Q]. exists x. rewrite Q, <- app_assoc. reflexivity. }
  split.
  - intros N. apply (dinv_waiting _ _ _ P1 I1). auto.
  - intros ->. symmetry in M. apply Z.eqb_eq in M. exact M.
Qed.
(* a poll never stops for want of room while room is left, and sinking never
   loses bytes: the decoder takes min(room, length) of them *)
Lemma decoder_sink ops d S O b : Forall (fun o => match o with DPoll n => 0 <= n | _ => True end) ops ->
  d_run d_reset ops = Ok (d, S, O) ->
  exists d1 n, d_sink d b = (d1, n) /\ n = Z.min (256 - d_isz d) (zlen b) /\ 0 <= n.
Proof.
  intros F E. destruct (d_run_ok ops d_reset [] [] [] dinv_reset F) as (d1 & S1 & O1 & P & E1 & I). rewrite E in E1.
  injection E1 as <- <- <-. destruct (d_sink_ok _ _ _ _ b I) as (d2 & n & E2 & Hn & N0 & _). exists d2, n. split; [exact E2|]. split; [exact Hn|lia].
Qed.

(* size of the output *)
Lemma repeat_back_length n d h : length (repeat_back n d h) = (length h + n)%nat.
Proof. revert h. induction n as [|n IH]; intros h; cbn [repeat_back]; [lia|]. rewrite IH, app_length. cbn. lia. Qed.
Definition token_size (t : token) : Z := match t with Lit _ => 1 | Ref _ n => n end.
Lemma hist_size ts : Forall token_ok ts -> forall h,
  8 * (zlen (fold_left expand1 ts h) - zlen h) <= 64 * zlen (tbits ts).
Proof.
  induction 1 as [|t ts Ht _ IH]; intros h; [cbn [fold_left]; pose proof (zlen_nonneg (tbits [])); lia|].
  cbn [fold_left tbits flat_map]. specialize (IH (expand1 h t)). fold (tbits ts). rewrite zlen_app.
  assert (L : zlen (expand1 h t) = zlen h + token_size t).
  { destruct t; cbn [expand1 token_size]; [rewrite zlen_app; reflexivity|]. unfold zlen. rewrite repeat_back_length.
    destruct Ht. lia. }
  assert (T : 8 * token_size t <= 64 * zlen (token_bits t)).
  { unfold zlen. rewrite token_bits_length. destruct t; cbn [token_size]; [lia|]. destruct Ht. lia. }
  lia.
Qed.
Lemma parse_bits n : forall l, exists r, l = tbits (parse n l) ++ r.
Proof.
  induction n as [|n IH]; intros l; [exists l; reflexivity|]. cbn [parse]. destruct l as [|[] l]; [exists []; reflexivity| |].
  - destruct (Z.leb_spec 8 (zlen l)); [|exists (true :: l); reflexivity]. destruct (IH (zdrop 8 l)) as [r E]. exists r.
    change (tbits (?t :: ?q)) with (token_bits t ++ tbits q). cbn [token_bits app]. rewrite <- app_assoc, <- E. f_equal.
    unfold zlen in *. unfold ztake, zdrop. change (Z.to_nat 8) with 8%nat. rewrite (firstn_split 8 l) at 1. f_equal.
    rewrite <- (to_bits_val (firstn 8 l)) at 1. rewrite firstn_length, Nat.min_l by lia. reflexivity.
  - destruct (Z.leb_spec 15 (zlen l)); [|exists (false :: l); reflexivity]. destruct (IH (zdrop 15 l)) as [r E]. exists r.
    change (tbits (?t :: ?q)) with (token_bits t ++ tbits q). cbn [token_bits app]. rewrite <- !app_assoc, <- E. f_equal.
    unfold zlen in *. unfold slice, ztake, zdrop. change (Z.to_nat 8) with 8%nat. change (Z.to_nat 7) with 7%nat. change (Z.to_nat 15) with 15%nat.
    rewrite !Z.add_simpl_l. rewrite (firstn_split 8 l) at 1. f_equal.
    + rewrite <- (to_bits_val (firstn 8 l)) at 1. rewrite firstn_length, Nat.min_l by lia. reflexivity.
    + rewrite (firstn_split 7 (skipn 8 l)) at 1. f_equal.
      * rewrite <- (to_bits_val (firstn 7 (skipn 8 l))) at 1. rewrite firstn_length, skipn_length, Nat.min_l by lia. reflexivity.
      * do 9 (destruct l as [|? l]; [reflexivity|]). reflexivity.
Qed.
Lemma decode_bound S : zlen (hs_decode S) <= 64 * zlen S.
Proof.
  rewrite hs_decode_tokens. pose proof (hist_size _ (tokens_ok (bits_of S)) (zeros 256)) as H.
  change (fold_left expand1 (tokens (bits_of S)) (zeros 256)) with (hist (tokens (bits_of S))) in H.
  rewrite hist_expand, zlen_app in H.
  destruct (parse_bits (length (bits_of S)) (bits_of S)) as [r E]. fold (tokens (bits_of S)) in E.
  assert (L : zlen (tbits (tokens (bits_of S))) <= 8 * zlen S).
  { apply (f_equal (@length bool)) in E. rewrite app_length, bits_of_length in E. unfold zlen. lia. }
  lia.
Qed.
(* compressed data decodes to what it stands for *)
Lemma compressed_decodes c s : compressed c s -> hs_decode c = s.
Proof.
  intros (_ & ts & p & Ht & E & Hp & X). rewrite hs_decode_tokens, E. fold (tbits ts). unfold tbits. rewrite tokens_app by exact Ht.
  rewrite tokens_incomplete, app_nil_r; [exact X|]. destruct p; cbn [repeat incomplete]; [exact I|]. rewrite repeat_length. lia.
Qed.
(* a poll that says EMPTY leaves an empty input buffer *)
Lemma waiting_empty d S O P : dinv d S O P -> waiting d P -> d_isz d = 0.
Proof.
  intros (R & _) W. destruct R as (RI & R1 & R2 & k & Hk & Hb & HP).
  assert (L : (length P < 8)%nat).
  { unfold waiting in W. destruct (d_st d); try contradiction; try lia. rewrite W; cbn; lia. }
  destruct RI as [[? _]|RI]; [assumption|]. exfalso. rewrite HP, app_length, bits_of_length in L.
  pose proof (zlen_slice_in (d_iidx d) (d_isz d - d_iidx d) (d_in d) ltac:(lia) ltac:(lia) ltac:(lia)) as Q.
  unfold zlen in Q. lia.
Qed.
