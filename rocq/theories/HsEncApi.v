(* HsEncApi.v -- any caller of the encoder *)
From Verif Require Import Base BaseLemmas HsSpec HsBits HsModel HsDecoder HsDecApi HsEncoder HsEncStep.
From Coq Require Import Lia.

Definition eop_ok (o : eop) : Prop :=
  match o with ESink b => bytes_ok b | EPoll n => 0 <= n | EFinish => True end.
Lemma e_run_ok ops : forall e S O, einv e S O -> e_st e <> ESave -> Forall eop_ok ops ->
  exists e1 S1 O1, e_run e ops = Ok (e1, S1, O1) /\ einv e1 (S ++ S1) (O ++ O1) /\ e_st e1 <> ESave.
Proof.
  induction ops as [|op ops IH]; intros e S O I NS F.
  - exists e, [], []. rewrite !app_nil_r. auto.
  - apply Forall_cons_iff in F as [F1 F2]. cbn [e_run]. destruct op as [b|osz|].
    + pose proof (e_sink_ok e S O b I F1) as K. destruct (_ || _).
      * rewrite K. cbn [bind]. apply IH; auto.
      * destruct K as (e1 & n & E & _ & _ & I1 & _ & NS1). rewrite E. cbn [bind].
        destruct (IH e1 _ _ I1 NS1 F2) as (e2 & S2 & O2 & E2 & I2 & N2). rewrite E2. cbn [bind fst snd].
        eexists _, _, _. split; [reflexivity|]. rewrite app_assoc. auto.
    + cbn [eop_ok] in F1. destruct (Z.eq_dec osz 0) as [->|N0].
      * change (e_poll 0 e) with (@Err (hse * bytes * bool) (-2)). apply IH; auto.
      * destruct (e_poll_ok osz e S O I ltac:(lia)) as (e1 & out & more & E & I1 & _ & _ & _ & _ & _ & _ & NS1). rewrite E.
        destruct (IH e1 _ _ I1 NS1 F2) as (e2 & S2 & O2 & E2 & I2 & N2). rewrite E2. cbn [bind fst snd].
        eexists _, _, _. split; [reflexivity|]. rewrite app_assoc. auto.
    + destruct (e_finish_ok e S O I NS) as (I1 & _ & _ & E & _). apply IH; auto.
      rewrite E. destruct (e_st e); congruence.
Qed.
Lemma einv_done e S O : einv e S O -> e_st e = EDone -> compressed O S.
Proof.
  intros (E & ts & base & BS & Lb & Hmsi & Hisz & B0 & HB & HBuf & EB & Ht & Hfin & I) St. rewrite St in I. cbn zeta in I.
  destruct I as (p & I1 & I2 & I3). split; [exact (proj1 EB)|]. exists ts, p. auto.
Qed.
(* whatever the calls: once finish says DONE the output is a compressed form of
   the bytes the encoder took *)
Lemma encoder_schedules ops : Forall eop_ok ops ->
  exists e S O, e_run e_reset ops = Ok (e, S, O) /\ (snd (e_finish e) = false -> compressed O S).
Proof.
  intros F. destruct (e_run_ok ops e_reset [] [] einv_reset ltac:(discriminate) F) as (e & S & O & E & I & NS).
  cbn [app] in I. exists e, S, O. split; [exact E|]. intros D.
  destruct (e_finish_ok e S O I NS) as (_ & _ & D2 & D3 & _). rewrite D in D2.
  apply (einv_done e S O I). rewrite D3 in D2. destruct (e_st e); try discriminate D2. reflexivity.
Qed.
Lemma mu_small e S O : einv e S O -> e_fin e = true -> e_st e <> ESave -> e_st e <> EFlush -> mu e <= 1 -> e_st e = EDone.
Proof.
  intros (E & ts & base & BS & Lb & Hmsi & Hisz & B0 & HB & HBuf & EB & Ht & Hfin & I) Fi N1 N2. cbn zeta in I. unfold mu.
  destruct (e_st e) eqn:St; try congruence; try lia.
  all: try (destruct I as [I _]; congruence).
  all: try (destruct I as ((_ & _ & M & _) & _); destruct (e_ocnt e =? 0); lia).
  destruct (e_mlen e =? 0); [lia|]. destruct I as ((_ & _ & M & _) & _). lia.
Qed.
(* once finished, at most 777 polls are needed *)
Lemma polls_done polls : forall e S O, einv e S O -> e_fin e = true -> e_st e <> ESave ->
  Forall (fun n => 0 < n) polls -> mu e <= Z.of_nat (length polls) ->
  exists e1 O1, e_run e (map EPoll polls) = Ok (e1, [], O1) /\ snd (e_finish e1) = false.
Proof.
  induction polls as [|n polls IH]; intros e S O I Fi NS F M.
  - cbn [length] in M. exists e, []. split; [reflexivity|].
    assert (D : e_st e = EDone).
    { apply (mu_small e S O I Fi NS); [|lia]. intros St. unfold mu in M. rewrite St in M. lia. }
    unfold e_finish. cbn [fst snd e_st]. rewrite D. reflexivity.
  - apply Forall_cons_iff in F as [F1 F2]. cbn [map e_run].
    destruct (e_poll_ok n e S O I F1) as (e1 & out & more & E & I1 & L & Fi1 & M1 & M2 & M3 & M4 & NS1). rewrite E.
    assert (K : mu e1 <= Z.of_nat (length polls)).
    { destruct M2 as [M2|[M2 M5]]; [cbn [length] in M; lia|].
      assert (mu e <= 1) by (unfold mu; destruct (e_st e); try discriminate M2; lia).
      assert (D1 : e_st e1 = EDone) by (apply (mu_small e1 _ _ I1); try congruence; lia).
      unfold mu. rewrite D1. lia. }
    destruct (IH e1 _ _ I1 ltac:(congruence) NS1 F2 K) as (e2 & O2 & E2 & D). rewrite E2. cbn [bind fst snd].
    exists e2, (out ++ O2). auto.
Qed.
Lemma e_run_app a : forall e b e1 S1 O1, e_run e a = Ok (e1, S1, O1) ->
  e_run e (a ++ b) = (do (p, o) <- e_run e1 b; Ok (fst p, S1 ++ snd p, O1 ++ o)).
Proof.
  induction a as [|op a IH]; intros e b e1 S1 O1.
  - cbn [e_run app]. intros Q. injection Q as <- <- <-. destruct (e_run e b) as [[[? ?] ?]| | |]; reflexivity.
  - cbn [app e_run]. destruct op as [x|n|].
    + destruct (e_sink e x) as [[[e2 k]|]| | |]; cbn [bind]; try discriminate; [|apply IH].
      destruct (e_run e2 a) as [[[e3 S3] O3]| | |] eqn:E3; cbn [bind fst snd]; try discriminate.
      intros Q. injection Q as <- <- <-. rewrite (IH e2 b _ _ _ E3).
      destruct (e_run e3 b) as [[[? ?] ?]| | |]; cbn [bind fst snd]; rewrite ?app_assoc; reflexivity.
    + destruct (e_poll n e) as [[[e2 o2] m]| | |]; try discriminate; [|apply IH].
      destruct (e_run e2 a) as [[[e3 S3] O3]| | |] eqn:E3; cbn [bind fst snd]; try discriminate.
      intros Q. injection Q as <- <- <-. rewrite (IH e2 b _ _ _ E3).
      destruct (e_run e3 b) as [[[? ?] ?]| | |]; cbn [bind fst snd]; rewrite ?app_assoc; reflexivity.
    + apply IH.
Qed.
(* every schedule can be completed: one finish, then 776 polls of any sizes *)
Lemma encoder_completes ops polls : Forall eop_ok ops -> Forall (fun n => 0 < n) polls -> (776 <= length polls)%nat ->
  exists e S O O1 e1, e_run e_reset ops = Ok (e, S, O) /\
    e_run e_reset (ops ++ EFinish :: map EPoll polls) = Ok (e1, S, O ++ O1) /\
    snd (e_finish e1) = false /\ compressed (O ++ O1) S.
Proof.
  intros F Fp Lp. destruct (e_run_ok ops e_reset [] [] einv_reset ltac:(discriminate) F) as (e & S & O & E & I & NS).
  cbn [app] in I. destruct (e_finish_ok e S O I NS) as (I1 & Fi & _ & St & _).
  assert (NS1 : e_st (fst (e_finish e)) <> ESave) by (rewrite St; destruct (e_st e); congruence).
  pose proof (mu_range _ _ _ I1) as M.
  assert (Hisz : e_isz (fst (e_finish e)) <= 256) by (destruct I1 as (? & ? & ? & ? & ? & ? & ? & _); lia).
  destruct (polls_done polls _ S O I1 Fi NS1 Fp ltac:(lia)) as (e1 & O1 & E1 & D).
  exists e, S, O, O1, e1.
  assert (Q : e_run e_reset (ops ++ EFinish :: map EPoll polls) = Ok (e1, S, O ++ O1)).
  { rewrite (e_run_app _ _ _ _ _ _ E). cbn [e_run]. rewrite E1. cbn [bind fst snd]. rewrite app_nil_r. reflexivity. }
  split; [exact E|]. split; [exact Q|]. split; [exact D|].
  assert (F2 : Forall eop_ok (ops ++ EFinish :: map EPoll polls)).
  { apply Forall_app. split; [exact F|]. constructor; [exact Logic.I|]. apply Forall_map. eapply Forall_impl; [|exact Fp]. cbn. intros; lia. }
  destruct (encoder_schedules _ F2) as (e2 & S2 & O2 & E2 & C). rewrite Q in E2. injection E2 as <- <- <-. auto.
Qed.
(* a poll of an unfinished encoder that says EMPTY leaves room for input *)
Lemma poll_makes_room e S O : einv e S O -> e_fin e = false -> stops (e_st e) = true -> e_st e = ENotFull /\ e_isz e < 256.
Proof.
  intros (E & ts & base & BS & Lb & Hmsi & Hisz & B0 & HB & HBuf & EB & Ht & Hfin & I) Fi St. specialize (Hfin Fi).
  destruct (e_st e); try discriminate St; try contradiction. auto.
Qed.
