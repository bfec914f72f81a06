(* HsPatchProofs.v -- heatshrink-compressed patches *)
From Verif Require Import Base BaseLemmas BspatchModel BsdiffModel HsSpec HsBits HsModel HsDecoder HsDecApi HsEncoder HsEncStep HsEncApi HsPatchModel.
From Coq Require Import Lia.

(* ---- compressor ---- *)
Lemma e_poll_stops osz e S O : einv e S O -> 0 < osz -> stops (e_st e) = true ->
  forall e1 out more, e_poll osz e = Ok (e1, out, more) -> more = false.
Proof.
  intros I Ho St e1 out more. unfold e_poll. destruct (Z.eqb_spec osz 0); [lia|].
  assert (0 <= e_isz e) by (destruct I as (? & ? & ? & ? & ? & ? & _); lia).
  replace (Z.to_nat (8 * e_isz e + 16)) with (Datatypes.S (Z.to_nat (8 * e_isz e + 15))) by lia. cbn [e_poll_loop].
  destruct (e_st e); try discriminate St.
  - intros Q. injection Q as _ _ <-. reflexivity.
  - destruct (e_flush osz e []) as [[? ?]| | |]; cbn [bind]; try discriminate. intros Q. injection Q as _ _ <-. reflexivity.
  - intros Q. injection Q as _ _ <-. reflexivity.
Qed.
Lemma concat_w (out : bytes) : concat (if zlen out >? 0 then [out] else []) = out.
Proof.
  destruct (Z.gtb_spec (zlen out) 0); [cbn; apply app_nil_r|].
  destruct out; [reflexivity|]. rewrite zlen_cons in *. pose proof (zlen_nonneg out). lia.
Qed.
Lemma hsc_poll_ok fuel : forall e S O, einv e S O -> mu e < Z.of_nat fuel ->
  exists e1 w, hsc_poll fuel e = Ok (e1, w) /\ einv e1 S (O ++ concat w) /\ e_fin e1 = e_fin e /\ stops (e_st e1) = true /\ mu e1 <= mu e.
Proof.
  induction fuel as [|fuel IH]; intros e S O I M; [pose proof (mu_range _ _ _ I); lia|]. cbn [hsc_poll].
  destruct (e_poll_ok 4096 e S O I ltac:(lia)) as (e1 & out & more & E & I1 & L & F & M1 & M2 & M3 & M4 & NS). rewrite E.
  destruct more.
  - assert (M5 : mu e1 < mu e).
    { destruct M2 as [?|[St _]]; [assumption|]. pose proof (e_poll_stops 4096 e S O I ltac:(lia) St _ _ _ E). discriminate. }
    destruct (IH e1 S _ I1 ltac:(lia)) as (e2 & w & E2 & I2 & F2 & S2 & M6). rewrite E2. cbn [bind].
    eexists _, _. split; [reflexivity|]. rewrite concat_app, concat_w, app_assoc. split; [exact I2|]. split; [congruence|]. split; [assumption|lia].
  - eexists _, _. split; [reflexivity|]. rewrite concat_w. split; [exact I1|]. split; [assumption|]. split; [auto|assumption].
Qed.
Lemma mu_776 e S O : einv e S O -> mu e <= 776.
Proof. intros I. pose proof (mu_range _ _ _ I). assert (e_isz e <= 256) by (destruct I as (? & ? & ? & ? & ? & ? & ? & _); lia). lia. Qed.
Lemma hsc_loop_ok fuel : forall e S O b, einv e S O -> e_st e = ENotFull -> e_fin e = false -> e_isz e < 256 -> bytes_ok b -> (length b < fuel)%nat ->
  exists e1 w, hsc_loop fuel e b = Ok (e1, w) /\ einv e1 (S ++ b) (O ++ concat w) /\ e_st e1 = ENotFull /\ e_fin e1 = false /\ e_isz e1 < 256.
Proof.
  induction fuel as [|fuel IH]; intros e S O b I St Fi Is Bb L; [lia|]. cbn [hsc_loop].
  pose proof (e_sink_ok e S O b I Bb) as K. rewrite Fi, St in K. cbn [orb negb estate_eqb] in K.
  destruct K as (e1 & n & E & Hn & Hn2 & I1 & F1 & _). rewrite E. cbn [bind].
  destruct (hsc_poll_ok 800 e1 _ _ I1) as (e2 & w & E2 & I2 & F2 & S2 & _); [pose proof (mu_776 _ _ _ I1); lia|]. rewrite E2. cbn [bind].
  assert (Fi2 : e_fin e2 = false) by congruence.
  destruct (poll_makes_room _ _ _ I2 Fi2 S2) as [St2 Is2].
  destruct (Z.ltb_spec n (zlen b)) as [C|C].
  - destruct (IH e2 _ _ (zdrop n b) I2 St2 Fi2 Is2) as (e3 & w3 & E3 & I3 & R).
    + apply bytes_ok_zdrop. exact Bb.
    + unfold zdrop. rewrite skipn_length. unfold zlen in *. lia.
    + rewrite E3. cbn [bind]. eexists _, _. split; [reflexivity|]. rewrite concat_app, app_assoc.
      rewrite <- app_assoc in I3. rewrite ztake_zdrop in I3. auto.
  - eexists _, _. split; [reflexivity|]. rewrite ztake_all in I2 by lia. auto.
Qed.
Lemma hsc_write_ok e S O b : einv e S O -> e_st e = ENotFull -> e_fin e = false -> e_isz e < 256 -> bytes_ok b ->
  exists e1 w, hsc_write e b = Ok (e1, w) /\ einv e1 (S ++ b) (O ++ concat w) /\ e_st e1 = ENotFull /\ e_fin e1 = false /\ e_isz e1 < 256.
Proof.
  intros I St Fi Is Bb. unfold hsc_write. destruct (Z.gtb_spec (zlen b) 0) as [C|C].
  - apply hsc_loop_ok; auto. lia.
  - assert (b = []) by (destruct b; [reflexivity|]; rewrite zlen_cons in C; pose proof (zlen_nonneg b); lia). subst b. rewrite app_nil_r.
    destruct (hsc_poll_ok 800 e _ _ I) as (e2 & w & E2 & I2 & F2 & S2 & _); [pose proof (mu_776 _ _ _ I); lia|].
    assert (Fi2 : e_fin e2 = false) by congruence.
    destruct (poll_makes_room _ _ _ I2 Fi2 S2) as [St2 Is2]. exists e2, w. auto.
Qed.
Lemma hsc_writes_ok l : forall e S O, einv e S O -> e_st e = ENotFull -> e_fin e = false -> e_isz e < 256 -> Forall bytes_ok l ->
  exists e1 w, hsc_writes e l = Ok (e1, w) /\ einv e1 (S ++ concat l) (O ++ concat w) /\ e_st e1 = ENotFull /\ e_fin e1 = false /\ e_isz e1 < 256.
Proof.
  induction l as [|b l IH]; intros e S O I St Fi Is Bb; cbn [hsc_writes concat].
  - exists e, []. rewrite !app_nil_r. auto.
  - apply Forall_cons_iff in Bb as [B1 B2]. destruct (hsc_write_ok e S O b I St Fi Is B1) as (e1 & w & E & I1 & St1 & Fi1 & Is1). rewrite E. cbn [bind].
    destruct (IH e1 _ _ I1 St1 Fi1 Is1 B2) as (e2 & w2 & E2 & I2 & R). rewrite E2. cbn [bind]. eexists _, _. split; [reflexivity|].
    rewrite concat_app, !app_assoc. auto.
Qed.
Lemma hsc_fin_ok fuel : forall e S O, einv e S O -> e_fin e = true -> e_st e <> ESave -> mu e < Z.of_nat fuel ->
  exists e1 w, hsc_final fuel e = Ok (e1, w) /\ compressed (O ++ concat w) S.
Proof.
  induction fuel as [|fuel IH]; intros e S O I Fi NS M; [pose proof (mu_range _ _ _ I); lia|]. cbn [hsc_final].
  destruct (e_finish_ok e S O I NS) as (I1 & Fi1 & D & St & Sa). specialize (Sa Fi).
  destruct (e_finish e) as [e1 more]. cbn [fst snd] in *. subst e1. destruct more.
  - destruct (e_poll_ok 4096 e S O I ltac:(lia)) as (e1 & out & more & E & I2 & L & F & M1 & M2 & M3 & M4 & NS1). rewrite E.
    assert (M5 : mu e1 < mu e).
    { destruct M2 as [?|[St2 M5]]; [assumption|].
      assert (mu e <= 1) by (unfold mu; destruct (e_st e); try discriminate St2; lia).
      assert (D1 : e_st e1 = EDone) by (apply (mu_small e1 _ _ I2); try congruence; lia).
      unfold mu at 1. rewrite D1. unfold mu. destruct (e_st e) eqn:S3; try discriminate St2; try lia; [|discriminate D].
      exfalso. clear D IH. destruct I as (? & ? & ? & ? & ? & ? & ? & ? & ? & ? & ? & ? & ? & I). rewrite S3 in I. destruct I as [I _]. congruence. }
    destruct (IH e1 S _ I2 ltac:(congruence) NS1 ltac:(lia)) as (e2 & w & E2 & C). rewrite E2. cbn [bind].
    eexists _, _. split; [reflexivity|]. rewrite concat_app, concat_w, app_assoc. exact C.
  - exists e, []. split; [reflexivity|]. cbn [concat]. rewrite app_nil_r. apply (einv_done e S O I).
    destruct (e_st e); try discriminate D; reflexivity.
Qed.
Lemma e_finish_twice e : e_finish (fst (e_finish e)) = e_finish e.
Proof. unfold e_finish. cbn [fst e_isz e_msi e_mlen e_mpos e_obits e_ocnt e_fin e_st e_cur e_bit e_buf]. destruct (e_st e); reflexivity. Qed.
Lemma hsc_final_ok e S O : einv e S O -> e_st e <> ESave ->
  exists e1 w, hsc_final 800 e = Ok (e1, w) /\ compressed (O ++ concat w) S.
Proof.
  intros I NS. destruct (e_finish_ok e S O I NS) as (I1 & Fi1 & _ & St & _).
  assert (NS1 : e_st (fst (e_finish e)) <> ESave) by (rewrite St; destruct (e_st e); congruence).
  destruct (hsc_fin_ok 800 _ S O I1 Fi1 NS1) as (e1 & w & E & C); [pose proof (mu_776 _ _ _ I1); lia|].
  exists e1, w. split; [|exact C]. rewrite <- E. cbn [hsc_final]. rewrite e_finish_twice. reflexivity.
Qed.
Lemma compress_ok l : Forall bytes_ok l ->
  exists e w e2 w2, hsc_writes e_reset l = Ok (e, w) /\ hsc_final 800 e = Ok (e2, w2) /\ compressed (concat (w ++ w2)) (concat l).
Proof.
  intros B. destruct (hsc_writes_ok l e_reset [] [] einv_reset eq_refl eq_refl ltac:(cbn; lia) B) as (e & w & E & I & St & _).
  destruct (hsc_final_ok e _ _ I ltac:(congruence)) as (e2 & w2 & E2 & C). exists e, w, e2, w2.
  split; [exact E|]. split; [exact E2|]. rewrite concat_app. exact C.
Qed.
