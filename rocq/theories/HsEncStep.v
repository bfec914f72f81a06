(* HsEncStep.v -- every encoder step keeps the invariant *)
From Verif Require Import Base BaseLemmas HsSpec HsBits HsModel HsDecoder HsEncoder.
From Coq Require Import Lia.

Lemma zlen_hs S : zlen (hs S) = 256 + zlen S.
Proof. unfold hs. rewrite zlen_app, zlen_zeros. lia. Qed.
(* buffer contents seen through the invariant *)
Lemma buf_hs e S base i : ztake (256 + e_isz e) (e_buf e) = zdrop base (hs S) -> 0 <= base -> 0 <= i < 256 + e_isz e ->
  znth 0 i (e_buf e) = znth 0 (base + i) (hs S).
Proof.
  intros B Hb Hi. rewrite <- (znth_ztake (e_buf e) (256 + e_isz e)) by lia. rewrite B. apply znth_zdrop; lia.
Qed.
Lemma ok_znth l i : bytes_ok l -> 0 <= znth 0 i l < 256.
Proof.
  intros B. unfold znth. destruct (Nat.lt_ge_cases (Z.to_nat i) (length l)) as [C|C].
  - unfold bytes_ok in B. rewrite Forall_forall in B. apply B. apply nth_In. exact C.
  - rewrite nth_overflow by lia. lia.
Qed.
Lemma bytes_ok_hs S : bytes_ok S -> bytes_ok (hs S).
Proof. intros B. apply bytes_ok_app. split; [apply bytes_ok_zeros|exact B]. Qed.
Lemma push_outgoing_ok osz e OUT out E n v :
  ebits (e_cur e) (e_bit e) (OUT ++ out) E -> zlen out < osz -> e_ocnt e = Z.of_nat n -> (1 <= n <= 8)%nat -> e_obits e = v -> 0 <= v < 256 ->
  exists e1 out1, push_outgoing osz e out = Ok (e1, out1, Z.of_nat n) /\ zlen out1 <= osz /\
    ebits (e_cur e1) (e_bit e1) (OUT ++ out1) (E ++ to_bits n v) /\
    e_isz e1 = e_isz e /\ e_msi e1 = e_msi e /\ e_mlen e1 = e_mlen e /\ e_mpos e1 = e_mpos e /\ e_obits e1 = v /\
    e_ocnt e1 = 0 /\ e_fin e1 = e_fin e /\ e_st e1 = e_st e /\ e_buf e1 = e_buf e.
Proof.
  intros EB Ro Oc Hn Ov Hv. unfold push_outgoing. rewrite Oc.
  destruct (Z.gtb_spec (Z.of_nat n) 8); [lia|]. destruct (Z.gtb_spec (Z.of_nat n) 0); [|lia].
  rewrite Ov. unfold u8. rewrite (Z.mod_small v) by lia. rewrite Nat2Z.id.
  destruct (push_bits_ok osz n v e OUT out E EB Hn Hv Ro) as (e1 & out1 & E1 & L1 & (S1 & S2 & S3 & S4 & S5 & S6 & S7 & S8 & S9) & EB1).
  rewrite E1. cbn [bind]. eexists _, out1. split; [reflexivity|]. split; [exact L1|]. cbn [e_cur e_bit e_isz e_msi e_mlen e_mpos e_obits e_ocnt e_fin e_st e_buf].
  split; [exact EB1|]. rewrite S6, Oc. repeat split; try assumption; try congruence. lia.
Qed.

Definition stops (s : estate) : bool := match s with ENotFull | EDone | EFlush => true | _ => false end.

Lemma e_step_ok osz e S OUT out : einv e S (OUT ++ out) -> zlen out <= osz -> stops (e_st e) = false ->
  exists e1 out1, e_step osz e out = Ok (e1, out1) /\ einv e1 S (OUT ++ out1) /\ zlen out1 <= osz /\ e_fin e1 = e_fin e /\
    (0 <= mu e1 < mu e \/ (e1 = e /\ out1 = out /\ zlen out = osz)) /\ (e_st e = ESave -> e_st e1 = ENotFull).
Proof.
  intros IE. assert (SV : e_st e = ESave -> forall e1 o1, e_step osz e out = Ok (e1, o1) -> e_st e1 = ENotFull).
  { intros St e1 o1. unfold e_step, e_save. rewrite St. destruct (_ || _); [discriminate|]. cbn [bind]. intros Q. injection Q as <- _. reflexivity. }
  cut (zlen out <= osz -> stops (e_st e) = false ->
    exists e1 out1, e_step osz e out = Ok (e1, out1) /\ einv e1 S (OUT ++ out1) /\ zlen out1 <= osz /\ e_fin e1 = e_fin e /\
    (0 <= mu e1 < mu e \/ (e1 = e /\ out1 = out /\ zlen out = osz))).
  { intros C L Ns. destruct (C L Ns) as (e1 & out1 & H1 & H2 & H3 & H4 & H5). exists e1, out1. repeat (split; [assumption|]). intros St. exact (SV St _ _ H1). }
  clear SV. revert IE.
  intros (E & ts & base & BS & Lb & Hmsi & Hisz & B0 & HB & HBuf & EB & Ht & Hfin & I) L Ns.
  assert (Stay : zlen out = osz -> exists e1 out1, Ok (e, out) = Ok (e1, out1) /\ einv e1 S (OUT ++ out1) /\ zlen out1 <= osz /\ e_fin e1 = e_fin e /\
    (0 <= mu e1 < mu e \/ (e1 = e /\ out1 = out /\ zlen out = osz))).
  { intros Fu. exists e, out. split; [reflexivity|]. split; [|split; [exact L|split; [reflexivity|right; auto]]].
    exists E, ts, base. auto 20. }
  pose proof (zlen_hs S) as LH.
  assert (Hmu : mu e = mu e) by reflexivity. unfold mu in Hmu at 2. cbn zeta in Hmu. unfold e_step. destruct (e_st e) eqn:St; try discriminate Ns; cbn zeta in I.
  - (* filled *)
    exists (set_est e ESearch), out. split; [reflexivity|]. split; [|split; [exact L|split; [reflexivity|left]]].
    + exists E, ts, base. cbn [set_est e_buf e_msi e_isz e_cur e_bit e_fin e_st]. destruct I as (I1 & I2 & I3). auto 20.
    + rewrite Hmu. unfold mu. cbn [set_est e_st e_isz e_msi]. lia.
  - (* search *)
    destruct I as (I1 & I2). unfold e_search.
    destruct (Z.gtb_spec (e_msi e) (e_isz e - (if e_fin e then 1 else 128))) as [G|G].
    + cbn [bind]. destruct (e_fin e) eqn:Fi.
      * exists (set_est e EFlush), out. split; [reflexivity|]. split; [|split; [exact L|split; [exact Fi|left]]].
        -- exists E, ts, base. cbn [set_est e_buf e_msi e_isz e_cur e_bit e_fin e_st].
           repeat (split; [assumption|]). split; [rewrite Fi; discriminate|]. split; [lia|]. auto.
        -- rewrite Hmu. unfold mu. cbn [set_est e_st e_isz e_msi]. lia.
      * specialize (Hfin eq_refl).
        exists (set_est e ESave), out. split; [reflexivity|]. split; [|split; [exact L|split; [exact Fi|left]]].
        -- exists E, ts, base. cbn [set_est e_buf e_msi e_isz e_cur e_bit e_fin e_st].
           repeat (split; [assumption|]). split; [intros _; exact Hfin|]. split; [exact Fi|]. split; [lia|]. auto.
        -- rewrite Hmu. unfold mu. cbn [set_est e_st e_isz e_msi]. lia.
    + assert (Hm : e_msi e < e_isz e) by (destruct (e_fin e); lia).
      set (maxp := if e_isz e - e_msi e <? 128 then e_isz e - e_msi e else 128).
      assert (Hp : 1 <= maxp <= 128 /\ e_msi e + maxp <= e_isz e).
      { unfold maxp. destruct (Z.ltb_spec (e_isz e - e_msi e) 128); lia. }
      clearbody maxp.
      destruct (e_find_ok e (256 + e_msi e - 256) (256 + e_msi e) maxp) as (m & Em & Hmm); [exact Lb|lia|lia|lia|].
      rewrite Em. cbn [bind]. destruct m as [[len dist]|]; cbn [bind].
      * destruct Hmm as (M1 & M2 & M3).
        eexists _, out. split; [reflexivity|]. split; [|split; [exact L|split; [reflexivity|left]]].
        -- exists E, ts, base. cbn [e_buf e_msi e_isz e_cur e_bit e_fin e_st e_mlen e_mpos].
           repeat (split; [assumption|]).
           destruct (Z.eqb_spec len 0); [lia|]. split; [|auto]. unfold match_ok. cbn [e_mpos e_mlen e_msi e_isz].
           split; [lia|]. split; [lia|]. split; [lia|]. intros i Hi. specialize (M3 i Hi).
           rewrite !(buf_hs e S base) in M3 by (auto; lia).
           replace (256 + base + e_msi e - dist + i) with (base + (256 + e_msi e - dist + i)) by lia.
           replace (256 + base + e_msi e + i) with (base + (256 + e_msi e + i)) by lia. exact M3.
        -- rewrite Hmu. unfold mu. cbn [e_st e_isz e_msi e_mlen]. destruct (Z.eqb_spec len 0); lia.
      * eexists _, out. split; [reflexivity|]. split; [|split; [exact L|split; [reflexivity|left]]].
        -- exists E, ts, base. cbn [e_buf e_msi e_isz e_cur e_bit e_fin e_st e_mlen e_mpos].
           split; [assumption|]. split; [assumption|]. split; [lia|]. repeat (split; [assumption|]).
           cbn [Z.eqb]. split; [lia|]. split; [exact I1|]. rewrite I2. f_equal. lia.
        -- rewrite Hmu. unfold mu. cbn [e_st e_isz e_msi e_mlen Z.eqb]. lia.
  - (* tag *)
    unfold e_tag. destruct (Z.ltb_spec (zlen out) osz) as [Ro|Fu]; [|apply Stay; lia].
    revert I Hmu. destruct (Z.eqb_spec (e_mlen e) 0) as [M0|M0]; intros I Hmu.
    + destruct I as (I0 & I1 & I2).
      destruct (push_bits_ok osz 1 1 e OUT out E EB) as (e1 & out1 & E1 & L1 & (S1 & S2 & S3 & S4 & S5 & S6 & S7 & S8 & S9) & EB1); [lia|lia|exact Ro|].
      rewrite E1. cbn [bind]. exists (set_est e1 ELit), out1. split; [reflexivity|].
      split; [|split; [exact L1|split; [exact S7|left]]].
      * exists (E ++ [true]), ts, base. cbn [set_est e_buf e_msi e_isz e_cur e_bit e_fin e_st]. rewrite S1, S2, S7, S9.
        do 9 (split; [assumption|]). split; [exact Hfin|]. split; [exact I0|]. split; [rewrite I1; reflexivity|exact I2].
      * rewrite Hmu. unfold mu. cbn [set_est e_st e_isz e_msi]. rewrite S1, S2. lia.
    + destruct I as (I0 & I1 & I2).
      destruct (push_bits_ok osz 1 0 e OUT out E EB) as (e1 & out1 & E1 & L1 & (S1 & S2 & S3 & S4 & S5 & S6 & S7 & S8 & S9) & EB1); [lia|lia|exact Ro|].
      rewrite E1. cbn [bind]. eexists _, out1. split; [reflexivity|].
      split; [|split; [exact L1|split; [exact S7|left]]].
      * exists (E ++ [false]), ts, base. cbn [e_buf e_msi e_isz e_cur e_bit e_fin e_st e_mpos e_mlen e_obits e_ocnt].
        unfold match_ok. cbn [e_msi e_isz e_mpos e_mlen]. rewrite S1, S2, S3, S4, S7, S9.
        do 9 (split; [assumption|]). split; [exact Hfin|]. split; [exact I0|].
        split; [exact I2|]. left. split; [reflexivity|]. split; [reflexivity|]. rewrite I1. reflexivity.
      * destruct I0 as (_ & I0 & I0b & _). rewrite Hmu. unfold mu. cbn [e_st e_isz e_msi e_mlen e_ocnt]. rewrite S1, S2, S3. cbn [Z.eqb]. lia.
  - (* literal *)
    destruct I as (I0 & I1 & I2). unfold e_lit. destruct (Z.ltb_spec (zlen out) osz) as [Ro|Fu]; [|apply Stay; lia].
    rewrite e_get_ok by (auto; lia). cbn [bind].
    set (c := znth 0 (256 + (e_msi e - 1)) (e_buf e)).
    assert (Ec : c = znth 0 (256 + base + e_msi e - 1) (hs S)) by (unfold c; rewrite (buf_hs e S base) by (auto; lia); f_equal; lia).
    assert (Hc : 0 <= c < 256) by (rewrite Ec; apply ok_znth, bytes_ok_hs; exact BS). clearbody c.
    destruct (push_bits_ok osz 8 c e OUT out E EB) as (e1 & out1 & E1 & L1 & (S1 & S2 & S3 & S4 & S5 & S6 & S7 & S8 & S9) & EB1); [lia|lia|exact Ro|].
    rewrite E1. cbn [bind]. exists (set_est e1 ESearch), out1. split; [reflexivity|].
    split; [|split; [exact L1|split; [exact S7|left]]].
    + exists (E ++ to_bits 8 c), (ts ++ [Lit c]), base. cbn [set_est e_buf e_msi e_isz e_cur e_bit e_fin e_st]. rewrite S1, S2, S7, S9.
      do 7 (split; [assumption|]). split; [exact EB1|]. split; [apply Forall_app; split; [exact Ht|]; constructor; [exact Hc|constructor]|].
      split; [exact Hfin|]. split.
      * rewrite tbits_snoc, I1, <- app_assoc. reflexivity.
      * rewrite hist_snoc, I2. cbn [expand1]. rewrite Ec, ztake_snoc by lia. f_equal. lia.
    + rewrite Hmu. unfold mu. cbn [set_est e_st e_isz e_msi]. rewrite S1, S2. lia.
  - (* index *)
    destruct I as (I0 & I1 & I2). unfold e_idx. destruct (Z.ltb_spec (zlen out) osz) as [Ro|Fu]; [|apply Stay; lia].
    pose proof I0 as (J1 & J2 & J3 & J4).
    destruct I2 as [(O1 & O2 & O3)|(O1 & O2)]; rewrite O1 in Hmu; cbn [Z.eqb] in Hmu.
    + destruct (push_outgoing_ok osz e OUT out E 8 (e_mpos e - 1) EB Ro O1 ltac:(lia) O2 ltac:(lia)) as (e1 & out1 & E1 & L1 & EB1 & S1 & S2 & S3 & S4 & S5 & S6 & S7 & S8 & S9).
      rewrite E1. cbn [bind]. destruct (Z.gtb_spec (Z.of_nat 8) 0); [|lia].
      exists e1, out1. split; [reflexivity|]. split; [|split; [exact L1|split; [exact S7|left]]].
      * exists (E ++ to_bits 8 (e_mpos e - 1)), ts, base. unfold match_ok. rewrite S8, St, S1, S2, S3, S4, S6, S7, S9.
        do 7 (split; [assumption|]). split; [exact EB1|]. split; [exact Ht|]. split; [exact Hfin|]. split; [exact I0|]. split; [exact I1|].
        right. split; [reflexivity|]. rewrite O3, <- app_assoc. reflexivity.
      * rewrite Hmu. unfold mu. rewrite S8, St, S1, S2, S3, S6. cbn [Z.eqb]. lia.
    + unfold push_outgoing. rewrite O1. cbn [Z.gtb Z.compare bind].
      eexists _, out. split; [reflexivity|]. split; [|split; [exact L|split; [reflexivity|left]]].
      * exists E, ts, base. cbn [e_buf e_msi e_isz e_cur e_bit e_fin e_st e_mpos e_mlen e_obits e_ocnt].
        unfold match_ok. cbn [e_msi e_isz e_mpos e_mlen]. do 10 (split; [assumption|]). split; [exact I0|]. split; [exact I1|]. left. auto.
      * rewrite Hmu. unfold mu. cbn [e_st e_isz e_msi e_mlen e_ocnt]. cbn [Z.eqb]. lia.
  - (* length *)
    destruct I as (I0 & I1 & I2). unfold e_len. destruct (Z.ltb_spec (zlen out) osz) as [Ro|Fu]; [|apply Stay; lia].
    pose proof I0 as (J1 & J2 & J3 & J4).
    destruct I2 as [(O1 & O2 & O3)|(O1 & O2)]; rewrite O1 in Hmu; cbn [Z.eqb] in Hmu.
    + destruct (push_outgoing_ok osz e OUT out E 7 (e_mlen e - 1) EB Ro O1 ltac:(lia) O2 ltac:(lia)) as (e1 & out1 & E1 & L1 & EB1 & S1 & S2 & S3 & S4 & S5 & S6 & S7 & S8 & S9).
      rewrite E1. cbn [bind]. destruct (Z.gtb_spec (Z.of_nat 7) 0); [|lia].
      exists e1, out1. split; [reflexivity|]. split; [|split; [exact L1|split; [exact S7|left]]].
      * exists (E ++ to_bits 7 (e_mlen e - 1)), ts, base. unfold match_ok. rewrite S8, St, S1, S2, S3, S4, S6, S7, S9.
        do 7 (split; [assumption|]). split; [exact EB1|]. split; [exact Ht|]. split; [exact Hfin|]. split; [exact I0|]. split; [exact I1|].
        right. split; [reflexivity|]. rewrite O3, <- app_assoc. reflexivity.
      * rewrite Hmu. unfold mu. rewrite S8, St, S1, S2, S3, S6. cbn [Z.eqb]. lia.
    + unfold push_outgoing. rewrite O1. cbn [Z.gtb Z.compare bind].
      eexists _, out. split; [reflexivity|]. split; [|split; [exact L|split; [reflexivity|left]]].
      * exists E, (ts ++ [Ref (e_mpos e) (e_mlen e)]), base. cbn [e_buf e_msi e_isz e_cur e_bit e_fin e_st e_mpos e_mlen e_obits e_ocnt].
        split; [assumption|]. split; [assumption|]. split; [lia|]. repeat (split; [assumption|]).
        split; [apply Forall_app; split; [exact Ht|]; constructor; [cbn [token_ok]; lia|constructor]|].
        split; [exact Hfin|]. split.
        -- rewrite tbits_snoc. exact O2.
        -- rewrite hist_snoc, I1. cbn [expand1]. rewrite repeat_back_match; [f_equal; lia|lia|lia|].
           intros i Hi. apply J4. lia.
      * rewrite Hmu. unfold mu. cbn [e_st e_isz e_msi e_mlen]. cbn [Z.eqb]. lia.
  - (* save *)
    destruct I as (I0 & I1 & I2 & I3). specialize (Hfin I0). unfold e_save.
    destruct (Z.ltb_spec (256 - e_msi e) 0); [lia|]. cbn [orb]. rewrite Lb.
    destruct (Z.gtb_spec (256 - (256 - e_msi e) + (256 + (256 - e_msi e))) 512); [lia|]. cbn [bind].
    replace (256 - (256 - e_msi e)) with (e_msi e) by lia.
    set (x := slice (e_msi e) (256 + (256 - e_msi e)) (e_buf e)).
    assert (Lx : zlen x = 512 - e_msi e) by (unfold x; rewrite zlen_slice_in; lia).
    eexists _, out. split; [reflexivity|]. split; [|split; [exact L|split; [reflexivity|left]]].
    + exists E, ts, (base + e_msi e). cbn [e_buf e_msi e_isz e_cur e_bit e_fin e_st].
      split; [exact BS|]. split; [rewrite zlen_splice; lia|]. split; [lia|]. split; [lia|]. split; [lia|]. split; [lia|].
      split.
      { unfold splice. rewrite ztake_0. cbn [app]. rewrite ztake_app_l by lia. rewrite ztake_all by lia.
        unfold x, slice. rewrite ztake_all by (rewrite zlen_zdrop; lia). rewrite <- (ztake_all 512 (e_buf e)) by lia.
        rewrite Hfin in HBuf. change (256 + 256) with 512 in HBuf. rewrite HBuf.
        rewrite zdrop_zdrop by lia. f_equal. lia. }
      split; [exact EB|]. split; [exact Ht|]. split; [intros _; lia|]. split; [exact I0|]. split; [reflexivity|]. split; [exact I2|].
      rewrite I3. f_equal. lia.
    + rewrite Hmu. unfold mu. cbn [e_st]. lia.
Qed.

Lemma e_flush_ok osz e S OUT out : einv e S (OUT ++ out) -> zlen out <= osz -> e_st e = EFlush ->
  exists e1 out1, e_flush osz e out = Ok (e1, out1) /\ einv e1 S (OUT ++ out1) /\ zlen out1 <= osz /\ e_fin e1 = e_fin e /\
    (e_st e1 = EDone \/ (e1 = e /\ zlen out = osz)).
Proof.
  intros (E & ts & base & BS & Lb & Hmsi & Hisz & B0 & HB & HBuf & EB & Ht & Hfin & I) L St.
  pose proof (zlen_hs S) as LH. rewrite St in I. cbn zeta in I. destruct I as (I0 & I1 & I2).
  assert (X : expand ts = S).
  { assert (Q : zeros 256 ++ expand ts = zeros 256 ++ S).
    { rewrite <- hist_expand, I2. rewrite ztake_all by lia. reflexivity. }
    apply app_inv_head in Q. exact Q. }
  pose proof EB as (Bo & w & Lw & Hb & Hc & HE).
  unfold e_flush. destruct (Z.eqb_spec (e_bit e) 128) as [B8|B8].
  - assert (W0 : w = []).
    { destruct w; [reflexivity|]. exfalso. rewrite Hb in B8. change 128 with (2 ^ 7) in B8. apply Z.pow_inj_r in B8; cbn [length] in *; lia. }
    subst w. rewrite app_nil_r in HE. exists (set_est e EDone), out. split; [reflexivity|].
    split; [|split; [exact L|split; [reflexivity|left; reflexivity]]].
    exists E, ts, base. cbn [set_est e_buf e_msi e_isz e_cur e_bit e_fin e_st]. repeat (split; [assumption|]).
    split; [intros Fi; specialize (Hfin Fi); rewrite St in Hfin; exact Hfin|].
    exists 0%nat. cbn [repeat]. rewrite app_nil_r. split; [congruence|]. split; [lia|exact X].
  - destruct (Z.ltb_spec (zlen out) osz) as [Ro|Fu].
    + rewrite e_out_ok by exact Ro. cbn [bind]. exists (set_est e EDone), (out ++ [e_cur e]). split; [reflexivity|].
      split; [|split; [rewrite zlen_app; change (zlen [e_cur e]) with 1; lia|split; [reflexivity|left; reflexivity]]].
      set (c := e_cur e) in *. set (p := (8 - length w)%nat).
      assert (Wne : length w <> 0%nat).
      { intros W0. rewrite W0 in Hb. apply B8. exact Hb. }
      assert (Cv : c = val (w ++ repeat false p)).
      { rewrite val_app, repeat_length. rewrite Hc. replace (Z.of_nat p) with (8 - Z.of_nat (length w)) by lia.
        assert (V0 : forall n, val (repeat false n) = 0).
        { induction n as [|n IH]; [reflexivity|]. cbn [repeat]. rewrite val_cons, IH. cbn. lia. }
        rewrite V0. lia. }
      assert (Lp : length (w ++ repeat false p) = 8%nat) by (rewrite app_length, repeat_length; lia).
      assert (Bc : bits_of [c] = w ++ repeat false p).
      { rewrite bits_of_byte, Cv. rewrite <- Lp. apply to_bits_val. }
      assert (Hc8 : 0 <= c < 256) by (rewrite Cv; pose proof (val_bound (w ++ repeat false p)) as V; rewrite Lp in V; exact V).
      assert (EQ : bits_of (OUT ++ out ++ [c]) = tbits ts ++ repeat false p).
      { rewrite (app_assoc OUT out), (bits_of_app (OUT ++ out)), Bc, app_assoc, <- HE, I1. reflexivity. }
      exists (bits_of (OUT ++ out ++ [c]) ++ w), ts, base. cbn [set_est e_buf e_msi e_isz e_cur e_bit e_fin e_st]. repeat (split; [assumption|]).
      split.
      { split; [rewrite app_assoc; apply bytes_ok_app; split; [exact Bo|]; constructor; [exact Hc8|constructor]|].
        exists w. repeat (split; [assumption|]). reflexivity. }
      split; [exact Ht|]. split; [intros Fi; specialize (Hfin Fi); rewrite St in Hfin; exact Hfin|].
      exists p. split; [exact EQ|]. split; [lia|exact X].
    + exists e, out. split; [reflexivity|]. split; [|split; [exact L|split; [reflexivity|right; split; [reflexivity|lia]]]].
      exists E, ts, base. repeat (split; [assumption|]). rewrite St. auto.
Qed.
Lemma mu_range e S OUT : einv e S OUT -> 0 <= mu e <= 3 * e_isz e + 8.
Proof.
  intros (E & ts & base & BS & Lb & Hmsi & Hisz & B0 & HB & HBuf & EB & Ht & Hfin & I). cbn zeta in I. unfold mu.
  destruct (e_st e); try lia.
  - destruct (e_mlen e =? 0); [lia|]. destruct I as ((_ & ? & ? & _) & _). lia.
  - destruct I as ((_ & ? & ? & _) & _). destruct (e_ocnt e =? 0); lia.
  - destruct I as ((_ & ? & ? & _) & _). destruct (e_ocnt e =? 0); lia.
Qed.
Lemma estate_eqb_refl s : estate_eqb s s = true.
Proof. destruct s; reflexivity. Qed.

Lemma e_poll_loop_ok fuel : forall osz e S OUT out, einv e S (OUT ++ out) -> zlen out <= osz -> mu e < Z.of_nat fuel ->
  exists e1 out1 more, e_poll_loop fuel osz e out = Ok (e1, out1, more) /\ einv e1 S (OUT ++ out1) /\ zlen out1 <= osz /\ e_fin e1 = e_fin e /\
    mu e1 <= mu e /\ (zlen out < osz -> mu e1 < mu e \/ stops (e_st e) = true /\ e_st e1 <> EFlush) /\
    (more = true -> zlen out1 = osz) /\ (more = false -> stops (e_st e1) = true) /\ e_st e1 <> ESave.
Proof.
  induction fuel as [|fuel IH]; intros osz e S OUT out I L F; [pose proof (mu_range _ _ _ I); lia|].
  cbn [e_poll_loop].
  destruct (stops (e_st e)) eqn:Sp.
  - destruct (e_st e) eqn:St; try discriminate Sp.
    + exists e, out, false. repeat (split; [first [reflexivity|assumption|lia]|]).
      split; [intros _; right; rewrite St; split; [reflexivity|discriminate]|]. split; [discriminate|split; [intros _; rewrite St; reflexivity|rewrite St; discriminate]].
    + destruct (e_flush_ok osz e S OUT out I L St) as (e1 & out1 & E1 & I1 & L1 & F1 & D1). rewrite E1. cbn [bind].
      exists e1, out1, false. repeat (split; [first [reflexivity|assumption]|]).
      split; [|split; [|split; [discriminate|split]]].
      * destruct D1 as [D1|[-> _]]; [|lia]. unfold mu. rewrite D1, St. lia.
      * intros Ro. left. destruct D1 as [D1|[_ D1]]; [|lia]. unfold mu. rewrite D1, St. lia.
      * intros _. destruct D1 as [D1|[-> _]]; [rewrite D1; reflexivity|rewrite St; reflexivity].
      * destruct D1 as [D1|[-> _]]; [rewrite D1; discriminate|rewrite St; discriminate].
    + exists e, out, false. repeat (split; [first [reflexivity|assumption|lia]|]).
      split; [intros _; right; rewrite St; split; [reflexivity|discriminate]|]. split; [discriminate|split; [intros _; rewrite St; reflexivity|rewrite St; discriminate]].
  - destruct (e_step_ok osz e S OUT out I L Sp) as (e1 & out1 & E1 & I1 & L1 & F1 & D1 & SV).
    assert (G : forall X Y Z, match e_st e with ENotFull | EDone => X | EFlush => Y | _ => Z end = Z :> res (hse * bytes * bool)).
    { intros X Y Z0. destruct (e_st e); try discriminate Sp; reflexivity. }
    rewrite G. rewrite E1. cbn [bind].
    destruct (estate_eqb (e_st e1) (e_st e) && (zlen out1 =? osz)) eqn:Q.
    + apply andb_true_iff in Q as [Q0 Q]. apply Z.eqb_eq in Q.
      exists e1, out1, true. repeat (split; [first [reflexivity|assumption]|]).
      split; [destruct D1 as [?|[-> _]]; lia|]. split; [intros Ro; destruct D1 as [?|[_ [_ ?]]]; [left; lia|lia]|]. split; [intros _; exact Q|]. split; [discriminate|].
      intros V. rewrite V in Q0. destruct (e_st e); try discriminate Q0. specialize (SV eq_refl). congruence.
    + assert (D2 : 0 <= mu e1 < mu e).
      { destruct D1 as [?|(D1 & D2 & D3)]; [lia|]. subst e1 out1. rewrite estate_eqb_refl, D3, Z.eqb_refl in Q. discriminate Q. }
      destruct (IH osz e1 S OUT out1 I1 L1 ltac:(lia)) as (e2 & out2 & more & E2 & I2 & L2 & F2 & M2 & _ & M3 & M4).
      exists e2, out2, more. split; [exact E2|]. split; [exact I2|]. split; [exact L2|]. split; [congruence|]. split; [lia|].
      split; [intros _; left; lia|]. auto.
Qed.
Lemma e_poll_ok osz e S OUT : einv e S OUT -> 0 < osz ->
  exists e1 out more, e_poll osz e = Ok (e1, out, more) /\ einv e1 S (OUT ++ out) /\ zlen out <= osz /\ e_fin e1 = e_fin e /\
    mu e1 <= mu e /\ (mu e1 < mu e \/ stops (e_st e) = true /\ e_st e1 <> EFlush) /\
    (more = true -> zlen out = osz) /\ (more = false -> stops (e_st e1) = true) /\ e_st e1 <> ESave.
Proof.
  intros I Ho. unfold e_poll. destruct (Z.eqb_spec osz 0); [lia|]. pose proof (mu_range _ _ _ I) as M.
  destruct (e_poll_loop_ok (Z.to_nat (8 * e_isz e + 16)) osz e S OUT []) as (e1 & out & more & H).
  - rewrite app_nil_r. exact I.
  - change (zlen (@nil Z)) with 0. lia.
  - assert (0 <= e_isz e) by (destruct I as (? & ? & ? & ? & ? & ? & _); lia). lia.
  - exists e1, out, more. destruct H as (H1 & H2 & H3 & H4 & H5 & H6 & H7 & H8). repeat (split; [assumption|]).
    split; [apply H6; change (zlen (@nil Z)) with 0; lia|]. auto.
Qed.

Lemma e_sink_ok e S OUT b : einv e S OUT -> bytes_ok b ->
  if e_fin e || negb (estate_eqb (e_st e) ENotFull) then e_sink e b = Ok None
  else exists e1 n, e_sink e b = Ok (Some (e1, n)) /\ n = Z.min (256 - e_isz e) (zlen b) /\ 0 <= n <= zlen b /\
    einv e1 (S ++ ztake n b) OUT /\ e_fin e1 = false /\ e_st e1 <> ESave.
Proof.
  intros (E & ts & base & BS & Lb & Hmsi & Hisz & B0 & HB & HBuf & EB & Ht & Hfin & I) Bb. unfold e_sink.
  destruct (e_fin e) eqn:Fi; [reflexivity|]. cbn [orb].
  destruct (e_st e) eqn:St; try reflexivity. cbn [estate_eqb negb].
  specialize (Hfin eq_refl). cbn zeta in I. destruct I as (I0 & I1 & I2 & I3).
  pose proof (zlen_nonneg b) as Nb. pose proof (zlen_hs S) as LH.
  set (n := if 256 - e_isz e <? zlen b then 256 - e_isz e else zlen b).
  assert (Hn : n = Z.min (256 - e_isz e) (zlen b)) by (unfold n; destruct (Z.ltb_spec (256 - e_isz e) (zlen b)); lia).
  clearbody n. rewrite Lb. destruct (Z.ltb_spec n 0); [lia|]. destruct (Z.gtb_spec (256 + e_isz e + n) 512); [lia|]. cbn [orb].
  eexists _, n. split; [reflexivity|]. split; [exact Hn|]. split; [lia|]. split; [|split; [reflexivity|cbn [e_st]; destruct (n =? _); discriminate]].
  set (x := ztake n b). assert (Lx : zlen x = n) by (unfold x; rewrite zlen_ztake; lia).
  assert (HS : hs (S ++ x) = hs S ++ x) by (unfold hs; rewrite app_assoc; reflexivity).
  exists E, ts, base. cbn [e_buf e_msi e_isz e_cur e_bit e_fin e_st].
  split; [apply bytes_ok_app; split; [exact BS|apply bytes_ok_ztake; exact Bb]|].
  split; [rewrite zlen_splice; lia|]. split; [lia|]. split; [lia|]. split; [lia|]. split; [rewrite zlen_app; lia|].
  split.
  { unfold splice. rewrite app_assoc. rewrite ztake_app_l by (rewrite zlen_app, zlen_ztake; lia).
    rewrite ztake_all by (rewrite zlen_app, zlen_ztake; lia). rewrite HBuf, HS, zdrop_app_l by lia. reflexivity. }
  split; [exact EB|]. split; [exact Ht|].
  assert (Q : hist ts = ztake (256 + base + e_msi e) (hs (S ++ x))) by (rewrite HS, ztake_app_l by lia; exact I3).
  destruct (Z.eqb_spec n (256 - e_isz e)) as [Fu|Nf].
  - split; [intros _; lia|]. split; [exact I1|]. split; [exact I2|exact Q].
  - split; [intros _; lia|]. split; [reflexivity|]. split; [exact I1|]. split; [exact I2|exact Q].
Qed.
Lemma e_finish_ok e S OUT : einv e S OUT -> e_st e <> ESave ->
  let e1 := fst (e_finish e) in
  einv e1 S OUT /\ e_fin e1 = true /\ snd (e_finish e) = negb (estate_eqb (e_st e1) EDone) /\
  e_st e1 = match e_st e with ENotFull => EFilled | s => s end /\ (e_fin e = true -> e1 = e).
Proof.
  intros Ie NS. pose proof Ie as (E & ts & base & BS & Lb & Hmsi & Hisz & B0 & HB & HBuf & EB & Ht & Hfin & I). unfold e_finish. cbn [fst snd].
  split; [|split; [reflexivity|split; [reflexivity|split; [reflexivity|]]]].
  - exists E, ts, base. cbn [e_buf e_msi e_isz e_cur e_bit e_fin e_st e_mlen e_mpos e_obits e_ocnt].
    repeat (split; [assumption|]). cbn zeta in *. destruct (e_st e) eqn:St; (split; [discriminate|]); auto.
    + destruct I as (I0 & I1 & I2 & I3). auto.
    + contradiction.
  - intros Fi. destruct e as [a b c d f g h s i j k]. cbn in *. subst h. destruct s; try reflexivity. destruct I as (I0 & _). discriminate I0.
Qed.
Lemma einv_reset : einv e_reset [] [].
Proof.
  exists [], [], 0. split; [constructor|]. split; [reflexivity|]. split; [cbn; lia|]. split; [cbn; lia|]. split; [lia|]. split; [reflexivity|].
  split; [reflexivity|]. split.
  { split; [constructor|]. exists []. split; [cbn; lia|]. split; [reflexivity|]. split; reflexivity. }
  split; [constructor|]. split; [intros _; cbn; lia|]. cbn. split; [reflexivity|]. split; [reflexivity|]. split; reflexivity.
Qed.
