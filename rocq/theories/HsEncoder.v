(* HsEncoder.v -- the encoder produces a compressed form of its input *)
From Verif Require Import Base BaseLemmas HsSpec HsBits HsModel HsDecoder.
From Coq Require Import Lia.

Lemma znth_ztake (l : bytes) n i : 0 <= i < n -> znth 0 i (ztake n l) = znth 0 i l.
Proof.
  intros Hi. unfold znth, ztake. destruct (Nat.lt_ge_cases (Z.to_nat i) (length l)) as [C|C].
  - rewrite <- (firstn_skipn (Z.to_nat n) l) at 2. rewrite app_nth1; [reflexivity|]. rewrite firstn_length. lia.
  - rewrite !nth_overflow; [reflexivity|lia|rewrite firstn_length; lia].
Qed.
Lemma znth_zdrop (l : bytes) n i : 0 <= i -> 0 <= n -> znth 0 i (zdrop n l) = znth 0 (n + i) l.
Proof.
  intros Hi Hn. unfold znth, zdrop. replace (Z.to_nat (n + i)) with (Z.to_nat n + Z.to_nat i)%nat by lia.
  generalize (Z.to_nat n) as a, (Z.to_nat i) as b. intros a. revert l.
  induction a as [|a IH]; intros l b; [reflexivity|]. destruct l; [destruct b; reflexivity|]. cbn [skipn nth Nat.add]. apply IH.
Qed.
Lemma ztake_snoc (l : bytes) n : 0 <= n < zlen l -> ztake n l ++ [znth 0 n l] = ztake (n + 1) l.
Proof.
  intros Hn. rewrite ztake_plus by lia. f_equal. symmetry. change (ztake 1 (zdrop n l)) with (slice n 1 l).
  rewrite slice_cons_znth by lia. rewrite slice_neg_len by lia. reflexivity.
Qed.
Lemma lor_shift a j : 0 <= j -> Z.lor (a * 2 ^ (j + 1)) (2 ^ j) = (2 * a + 1) * 2 ^ j.
Proof.
  intros Hj. rewrite Z.pow_add_r by lia. change (2 ^ 1) with 2.
  replace (a * (2 ^ j * 2)) with (2 * a * 2 ^ j) by ring. replace (2 ^ j) with (1 * 2 ^ j) at 2 by ring.
  rewrite <- !Z.shiftl_mul_pow2 by lia. rewrite <- Z.shiftl_lor. f_equal.
  apply Z.bits_inj'. intros i Hi. rewrite Z.lor_spec.
  destruct (Z.eq_dec i 0) as [->|Ni]; [rewrite Z.testbit_even_0, Z.testbit_odd_0; reflexivity|].
  replace i with (Z.succ (i - 1)) by lia. rewrite Z.testbit_even_succ, Z.testbit_odd_succ by lia.
  change 1 with (2 * 0 + 1) at 2. rewrite Z.testbit_odd_succ, Z.bits_0 by lia. apply orb_false_r.
Qed.

(* ---- bit output ---- *)
(* bits written so far: whole bytes [OUT] and the beginning of the current one *)
Definition ebits (cur bit : Z) (OUT : bytes) (E : list bool) : Prop :=
  bytes_ok OUT /\ exists w, (length w <= 7)%nat /\ bit = 2 ^ (7 - Z.of_nat (length w)) /\
    cur = val w * 2 ^ (8 - Z.of_nat (length w)) /\ E = bits_of OUT ++ w.
Lemma e_out_ok osz out c : zlen out < osz -> e_out osz out c = Ok (out ++ [c]).
Proof. intros L. unfold e_out. destruct (Z.ltb_spec (zlen out) osz); [reflexivity|lia]. Qed.
Lemma bits_of_byte c : bits_of [c] = to_bits 8 c.
Proof. unfold bits_of. cbn [flat_map]. apply app_nil_r. Qed.
Lemma push_loop_ok n : forall osz v cur bit OUT out w,
  bytes_ok (OUT ++ out) -> (length w <= 7)%nat -> bit = 2 ^ (7 - Z.of_nat (length w)) -> cur = val w * 2 ^ (8 - Z.of_nat (length w)) ->
  (n <= 8)%nat -> (zlen out < osz \/ (length w + n < 8)%nat) -> zlen out <= osz ->
  exists cur1 bit1 out1, push_bits_loop n osz v cur bit out = Ok (cur1, bit1, out1) /\ zlen out1 <= osz /\
    ebits cur1 bit1 (OUT ++ out1) (bits_of (OUT ++ out) ++ w ++ to_bits n v).
Proof.
  induction n as [|n IH]; intros osz v cur bit OUT out w B Lw Hb Hc Hn Room Lo.
  - exists cur, bit, out. split; [reflexivity|]. split; [exact Lo|]. split; [exact B|]. exists w. cbn [to_bits]. rewrite app_nil_r. auto.
  - cbn [push_bits_loop to_bits].
    set (b := Z.testbit v (Z.of_nat n)).
    assert (C1 : (if Z.land v (2 ^ Z.of_nat n) =? 0 then cur else Z.lor cur bit) = val (w ++ [b]) * 2 ^ (7 - Z.of_nat (length w))).
    { rewrite land_pow2 by lia. fold b. rewrite val_snoc, Hc, Hb.
      replace (8 - Z.of_nat (length w)) with (7 - Z.of_nat (length w) + 1) by lia.
      destruct b; cbn [negb Z.b2z].
      - apply lor_shift. lia.
      - rewrite Z.pow_add_r by lia. change (2 ^ 1) with 2. ring. }
    rewrite C1. clear C1.
    destruct (Nat.eq_dec (length w) 7) as [L7|L7].
    + rewrite Hb, L7. change (Z.shiftr (2 ^ (7 - Z.of_nat 7)) 1) with 0. cbn [Z.eqb].
      assert (Ro : zlen out < osz) by lia. rewrite e_out_ok by exact Ro. cbn [bind].
      change (2 ^ (7 - Z.of_nat 7)) with 1. rewrite Z.mul_1_r.
      assert (L8 : length (w ++ [b]) = 8%nat) by (rewrite app_length; cbn; lia).
      assert (V : 0 <= val (w ++ [b]) < 256) by (pose proof (val_bound (w ++ [b])) as V; rewrite L8 in V; exact V).
      destruct (IH osz v 0 128 OUT (out ++ [val (w ++ [b])]) []) as (cur1 & bit1 & out1 & E & L1 & EB).
      * rewrite app_assoc. apply bytes_ok_app. split; [exact B|]. constructor; [exact V|constructor].
      * cbn. lia.
      * reflexivity.
      * reflexivity.
      * lia.
      * right. cbn. lia.
      * rewrite zlen_app. change (zlen [val (w ++ [b])]) with 1. lia.
      * exists cur1, bit1, out1. split; [exact E|]. split; [exact L1|].
        pose proof (to_bits_val (w ++ [b])) as H8. rewrite L8 in H8.
        assert (EQ : bits_of (OUT ++ out ++ [val (w ++ [b])]) ++ [] ++ to_bits n v = bits_of (OUT ++ out) ++ w ++ b :: to_bits n v).
        { rewrite (app_assoc OUT out), bits_of_app, bits_of_byte, H8. cbn [app]. rewrite <- !app_assoc. reflexivity. }
        rewrite EQ in EB. exact EB.
    + assert (SH : Z.shiftr bit 1 = 2 ^ (7 - Z.of_nat (length (w ++ [b])))).
      { rewrite Hb, app_length. cbn [length]. rewrite Z.shiftr_div_pow2 by lia. change (2 ^ 1) with 2.
        replace (7 - Z.of_nat (length w)) with (Z.succ (7 - Z.of_nat (length w + 1))) by lia. rewrite Z.pow_succ_r by lia.
        rewrite Z.mul_comm, Z.div_mul by lia. reflexivity. }
      rewrite SH. destruct (Z.eqb_spec (2 ^ (7 - Z.of_nat (length (w ++ [b])))) 0) as [Z0|_].
      { exfalso. revert Z0. rewrite app_length. cbn [length]. apply Z.pow_nonzero; lia. }
      destruct (IH osz v (val (w ++ [b]) * 2 ^ (7 - Z.of_nat (length w))) (2 ^ (7 - Z.of_nat (length (w ++ [b])))) OUT out (w ++ [b])) as (cur1 & bit1 & out1 & E & L1 & EB).
      * exact B.
      * rewrite app_length; cbn; lia.
      * reflexivity.
      * f_equal. f_equal. rewrite app_length. cbn [length]. lia.
      * lia.
      * destruct Room as [?|?]; [left; assumption|right; rewrite app_length; cbn; lia].
      * exact Lo.
      * exists cur1, bit1, out1. split; [exact E|]. split; [exact L1|]. rewrite <- app_assoc in EB. exact EB.
Qed.
Definition same_e (e f : hse) : Prop :=
  e_isz f = e_isz e /\ e_msi f = e_msi e /\ e_mlen f = e_mlen e /\ e_mpos f = e_mpos e /\ e_obits f = e_obits e /\
  e_ocnt f = e_ocnt e /\ e_fin f = e_fin e /\ e_st f = e_st e /\ e_buf f = e_buf e.
Lemma push_bits_ok osz n v e OUT out E :
  ebits (e_cur e) (e_bit e) (OUT ++ out) E -> (1 <= n <= 8)%nat -> 0 <= v < 256 -> zlen out < osz ->
  exists e1 out1, push_bits osz n v e out = Ok (e1, out1) /\ zlen out1 <= osz /\ same_e e e1 /\
    ebits (e_cur e1) (e_bit e1) (OUT ++ out1) (E ++ to_bits n v).
Proof.
  intros (B & w & Lw & Hb & Hc & HE) Hn Hv Ro. unfold push_bits.
  destruct (Nat.eqb n 8 && (e_bit e =? 128)) eqn:Q.
  - apply andb_true_iff in Q as [Q1 Q2]. apply Nat.eqb_eq in Q1. apply Z.eqb_eq in Q2. subst n.
    assert (W0 : w = []).
    { destruct w; [reflexivity|]. exfalso. rewrite Hb in Q2. change 128 with (2 ^ 7) in Q2. apply Z.pow_inj_r in Q2; cbn [length] in *; lia. }
    subst w. rewrite e_out_ok by exact Ro. cbn [bind]. exists e, (out ++ [v]). split; [reflexivity|].
    split; [rewrite zlen_app; change (zlen [v]) with 1; lia|]. split; [repeat split|].
    split.
    + rewrite app_assoc. apply bytes_ok_app. split; [exact B|]. constructor; [exact Hv|constructor].
    + exists []. split; [cbn; lia|]. split; [exact Hb|]. split; [exact Hc|]. rewrite HE, !app_nil_r. rewrite (app_assoc OUT out), (bits_of_app (OUT ++ out)), bits_of_byte. reflexivity.
  - destruct (push_loop_ok n osz v (e_cur e) (e_bit e) OUT out w B Lw Hb Hc) as (cur1 & bit1 & out1 & E1 & L1 & EB); [lia|lia|lia|].
    rewrite E1. cbn [bind]. eexists _, out1. split; [reflexivity|]. split; [exact L1|]. split; [repeat split|].
    cbn [e_cur e_bit]. rewrite HE, <- app_assoc. exact EB.
Qed.

(* ---- search ---- *)
Lemma e_get_ok e i : zlen (e_buf e) = 512 -> 0 <= i < 512 -> e_get e i = Ok (znth 0 i (e_buf e)).
Proof.
  intros L Hi. unfold e_get. rewrite L. destruct (Z.leb_spec 0 i); [|lia]. destruct (Z.ltb_spec i 512); [|lia]. reflexivity.
Qed.
Definition matches (l : bytes) (pos end_ n : Z) : Prop :=
  forall i, 0 <= i < n -> znth 0 (pos + i) l = znth 0 (end_ + i) l.
Lemma e_match_len_ok fuel : forall e pos end_ len maxlen, zlen (e_buf e) = 512 -> 0 <= pos < end_ -> end_ + maxlen <= 512 ->
  0 <= len <= maxlen -> matches (e_buf e) pos end_ len -> (Z.to_nat (maxlen - len) < fuel)%nat ->
  exists r, e_match_len fuel e pos end_ len maxlen = Ok r /\ len <= r <= maxlen /\ matches (e_buf e) pos end_ r.
Proof.
  induction fuel as [|fuel IH]; intros e pos end_ len maxlen L P B Hl M F; [lia|]. cbn [e_match_len].
  destruct (Z.ltb_spec len maxlen) as [C|C].
  - rewrite !e_get_ok by (auto; lia). cbn [bind]. destruct (Z.eqb_spec (znth 0 (pos + len) (e_buf e)) (znth 0 (end_ + len) (e_buf e))) as [Q|Q].
    + destruct (IH e pos end_ (len + 1) maxlen) as (r & E & Hr & Mr); auto; [lia| |lia|].
      { intros i Hi. destruct (Z.eq_dec i len) as [->|N]; [exact Q|]. apply M. lia. }
      exists r. split; [exact E|]. split; [lia|exact Mr].
    + exists len. split; [reflexivity|]. split; [lia|exact M].
  - exists len. split; [reflexivity|]. split; [lia|exact M].
Qed.
Lemma e_find_loop_ok fuel : forall e pos start end_ maxlen best idx, zlen (e_buf e) = 512 -> 0 <= start -> pos < end_ ->
  end_ + maxlen <= 512 -> 1 <= maxlen -> 0 <= best < maxlen ->
  (best = 0 \/ (start <= idx < end_ /\ matches (e_buf e) idx end_ best)) ->
  (Z.to_nat (pos - start + 1) < fuel)%nat ->
  exists b i, e_find_loop fuel e pos start end_ maxlen best idx = Ok (b, i) /\ 0 <= b <= maxlen /\
    (b = 0 \/ (start <= i < end_ /\ matches (e_buf e) i end_ b)).
Proof.
  induction fuel as [|fuel IH]; intros e pos start end_ maxlen best idx L S0 P B M1 Hb Hm F; [lia|]. cbn [e_find_loop].
  destruct (Z.geb_spec (pos - start) 0) as [C|C].
  - rewrite !e_get_ok by (auto; lia). cbn [bind].
    assert (IHk : forall b i, 0 <= b < maxlen -> (b = 0 \/ (start <= i < end_ /\ matches (e_buf e) i end_ b)) ->
      exists b0 i0, e_find_loop fuel e (pos - 1) start end_ maxlen b i = Ok (b0, i0) /\ 0 <= b0 <= maxlen /\
        (b0 = 0 \/ (start <= i0 < end_ /\ matches (e_buf e) i0 end_ b0))).
    { intros b i H1 H2. apply IH; auto; lia. }
    destruct (_ && _) eqn:Q; [|apply IHk; auto].
    apply andb_true_iff in Q as [Q1 Q2]. apply Z.eqb_eq in Q2.
    destruct (e_match_len_ok (Z.to_nat maxlen + 1) e pos end_ 1 maxlen) as (r & E & Hr & Mr); auto; try lia.
    { intros i Hi. replace i with 0 by lia. rewrite !Z.add_0_r. exact Q2. }
    rewrite E. cbn [bind]. destruct (Z.gtb_spec r best) as [G|G]; [|apply IHk; auto].
    destruct (Z.eqb_spec r maxlen) as [Em|Nm].
    + exists r, pos. split; [reflexivity|]. split; [lia|]. right. split; [lia|exact Mr].
    + apply IHk; [lia|]. right. split; [lia|exact Mr].
  - exists best, idx. split; [reflexivity|]. split; [lia|exact Hm].
Qed.
Lemma e_find_ok e start end_ maxlen : zlen (e_buf e) = 512 -> 0 <= start < end_ -> end_ + maxlen <= 512 -> 1 <= maxlen ->
  exists m, e_find e start end_ maxlen = Ok m /\
    match m with
    | None => True
    | Some (len, dist) => 3 <= len <= maxlen /\ 1 <= dist <= end_ - start /\ matches (e_buf e) (end_ - dist) end_ len
    end.
Proof.
  intros L S0 B M. unfold e_find.
  destruct (e_find_loop_ok (Z.to_nat (end_ - start) + 1) e (end_ - 1) start end_ maxlen 0 (-1)) as (b & i & E & Hb & Hm); auto; try lia.
  rewrite E. cbn [bind]. destruct (Z.gtb_spec b 2) as [G|G].
  - exists (Some (b, end_ - i)). split; [reflexivity|]. destruct Hm as [?|[Hi Mi]]; [lia|]. split; [lia|]. split; [lia|].
    replace (end_ - (end_ - i)) with i by lia. exact Mi.
  - exists None. auto.
Qed.

(* a match in the history is a back reference *)
Lemma repeat_back_match n : forall d q H, 1 <= d <= q -> q + Z.of_nat n <= zlen H ->
  (forall i, 0 <= i < Z.of_nat n -> znth 0 (q - d + i) H = znth 0 (q + i) H) ->
  repeat_back n d (ztake q H) = ztake (q + Z.of_nat n) H.
Proof.
  induction n as [|n IH]; intros d q H Hd Hq M.
  - cbn [repeat_back]. f_equal. lia.
  - cbn [repeat_back]. assert (Lq : zlen (ztake q H) = q) by (rewrite zlen_ztake; lia).
    rewrite Lq, znth_ztake by lia.
    assert (E0 : znth 0 (q - d) H = znth 0 q H) by (specialize (M 0 ltac:(lia)); rewrite !Z.add_0_r in M; exact M).
    rewrite E0. rewrite ztake_snoc by lia.
    rewrite IH; [f_equal; lia|lia|lia|]. intros i Hi. specialize (M (i + 1) ltac:(lia)).
    replace (q + 1 - d + i) with (q - d + (i + 1)) by lia. replace (q + 1 + i) with (q + (i + 1)) by lia. exact M.
Qed.

(* ---- the invariant ---- *)
Definition hs (S : bytes) : bytes := zeros 256 ++ S.
Definition match_ok (e : hse) (S : bytes) (q : Z) : Prop :=
  1 <= e_mpos e <= 256 /\ 3 <= e_mlen e <= 128 /\ e_msi e + e_mlen e <= e_isz e /\ matches (hs S) (q - e_mpos e) q (e_mlen e).
(* [q]: the length of the history already coded plus 256, when no literal is
   under way *)
Definition einv (e : hse) (S OUT : bytes) : Prop :=
  exists E ts base,
  bytes_ok S /\ zlen (e_buf e) = 512 /\ 0 <= e_msi e <= e_isz e /\ e_isz e <= 256 /\
  0 <= base /\ base + e_isz e = zlen S /\ ztake (256 + e_isz e) (e_buf e) = zdrop base (hs S) /\
  ebits (e_cur e) (e_bit e) OUT E /\ Forall token_ok ts /\
  (e_fin e = false -> match e_st e with ENotFull => e_isz e < 256 | EFlush | EDone => False | _ => e_isz e = 256 end) /\
  let q := 256 + base + e_msi e in
  match e_st e with
  | ENotFull => e_fin e = false /\ e_msi e = 0 /\ E = tbits ts /\ hist ts = ztake q (hs S)
  | EFilled => e_msi e = 0 /\ E = tbits ts /\ hist ts = ztake q (hs S)
  | ESearch => E = tbits ts /\ hist ts = ztake q (hs S)
  | ESave => e_fin e = false /\ 128 < e_msi e /\ E = tbits ts /\ hist ts = ztake q (hs S)
  | EFlush => e_msi e = e_isz e /\ E = tbits ts /\ hist ts = ztake q (hs S)
  | ETag =>
      if e_mlen e =? 0 then 1 <= e_msi e /\ E = tbits ts /\ hist ts = ztake (q - 1) (hs S)
      else match_ok e S q /\ E = tbits ts /\ hist ts = ztake q (hs S)
  | ELit => 1 <= e_msi e /\ E = tbits ts ++ [true] /\ hist ts = ztake (q - 1) (hs S)
  | EIdx => match_ok e S q /\ hist ts = ztake q (hs S) /\
      ((e_ocnt e = 8 /\ e_obits e = e_mpos e - 1 /\ E = tbits ts ++ [false]) \/
       (e_ocnt e = 0 /\ E = tbits ts ++ false :: to_bits 8 (e_mpos e - 1)))
  | ELen => match_ok e S q /\ hist ts = ztake q (hs S) /\
      ((e_ocnt e = 7 /\ e_obits e = e_mlen e - 1 /\ E = tbits ts ++ false :: to_bits 8 (e_mpos e - 1)) \/
       (e_ocnt e = 0 /\ E = tbits ts ++ token_bits (Ref (e_mpos e) (e_mlen e))))
  | EDone => exists p, bits_of OUT = tbits ts ++ repeat false p /\ (p < 8)%nat /\ expand ts = S
  end.
(* how many more steps until more input, or a finish, is needed *)
Definition mu (e : hse) : Z :=
  let r := 3 * (e_isz e - e_msi e) in
  match e_st e with
  | ENotFull | EDone => 0
  | EFlush | ESave => 1
  | EFilled => r + 4
  | ESearch => r + 3
  | ETag => if e_mlen e =? 0 then r + 5 else r - 3 * e_mlen e + 8
  | ELit => r + 4
  | EIdx => r - 3 * e_mlen e + (if e_ocnt e =? 0 then 6 else 7)
  | ELen => r - 3 * e_mlen e + (if e_ocnt e =? 0 then 4 else 5)
  end.
