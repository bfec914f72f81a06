(* HsDecoder.v -- the decoder computes the specified expansion *)
From Verif Require Import Base BaseLemmas HsSpec HsBits HsModel.
From Coq Require Import Lia.

(* [P]: the bits sunk and not consumed *)
Definition drel (d : hsd) (P : list bool) : Prop :=
  ((d_isz d = 0 /\ d_iidx d = 0) \/ 0 <= d_iidx d < d_isz d) /\ d_isz d <= 256 /\ zlen (d_in d) = 256 /\
  exists k, (k <= 7)%nat /\ d_bit d = Z.shiftr (2 ^ Z.of_nat k) 1 /\
    P = to_bits k (d_cur d) ++ bits_of (slice (d_iidx d) (d_isz d - d_iidx d) (d_in d)).
Definition same_rest (d e : hsd) : Prop :=
  d_ocnt e = d_ocnt d /\ d_oidx e = d_oidx d /\ d_head e = d_head d /\ d_st e = d_st d /\ d_win e = d_win d.
Lemma same_rest_refl d : same_rest d d.
Proof. repeat split. Qed.
Lemma same_rest_trans a b c : same_rest a b -> same_rest b c -> same_rest a c.
Proof. unfold same_rest. intuition congruence. Qed.

Lemma slice_cons_znth (l : bytes) i n : 0 <= i < zlen l -> 0 < n -> slice i n l = znth 0 i l :: slice (i + 1) (n - 1) l.
Proof.
  intros Hi Hn. unfold slice, ztake, zdrop, znth. rewrite !Z2Nat.inj_add, !Z2Nat.inj_sub by lia. change (Z.to_nat 1) with 1%nat.
  unfold zlen in Hi. assert (Hj : (Z.to_nat i < length l)%nat) by lia. revert Hj. generalize (Z.to_nat i) as j. intros j Hj.
  assert (E : skipn j l = nth j l 0 :: skipn (j + 1) l).
  { clear Hi. revert l Hj. induction j as [|j IH]; intros l Hj; destruct l; cbn [length] in *; try lia; [reflexivity|].
    cbn [skipn nth Nat.add]. destruct l as [|y l]; [cbn in Hj; lia|]. apply (IH (y :: l)); cbn [length] in *; lia. }
  rewrite E. destruct (Z.to_nat n) as [|m] eqn:En; [lia|]. cbn [firstn]. rewrite Nat.sub_succ, Nat.sub_0_r. reflexivity.
Qed.

Lemma get_bits_loop_ok n : forall acc d P, drel d P -> (n <= length P)%nat -> 0 <= acc ->
  (acc + 1) * 2 ^ Z.of_nat n <= 65536 ->
  exists d1, get_bits_loop n acc d = Ok (d1, Some (acc * 2 ^ Z.of_nat n + val (firstn n P))) /\
    drel d1 (skipn n P) /\ same_rest d d1.
Proof.
  induction n as [|n IH]; intros acc d P R L A B.
  - exists d. cbn [get_bits_loop firstn skipn]. split; [|split; [exact R|apply same_rest_refl]].
    repeat f_equal. unfold val. cbn. lia.
  - destruct R as (RI & R1 & R2 & k & Hk & Hb & HP).
    rewrite Nat2Z.inj_succ, Z.pow_succ_r in * by lia.
    assert (PP : 0 < 2 ^ Z.of_nat n) by (apply Z.pow_pos_nonneg; lia).
    (* one bit out of a loaded byte *)
    assert (ST : forall isz iidx cur k1, ((isz = 0 /\ iidx = 0) \/ 0 <= iidx < isz) -> isz <= 256 ->
      (k1 < 8)%nat -> P = to_bits (S k1) cur ++ bits_of (slice iidx (isz - iidx) (d_in d)) ->
      exists d1,
        get_bits_loop n (Z.lor (u16 (Z.shiftl acc 1)) (if Z.land cur (2 ^ Z.of_nat k1) =? 0 then 0 else 1))
          (mkD isz iidx (d_ocnt d) (d_oidx d) (d_head d) (d_st d) cur (Z.shiftr (2 ^ Z.of_nat k1) 1) (d_in d) (d_win d)) =
        Ok (d1, Some (acc * (2 * 2 ^ Z.of_nat n) + val (firstn (S n) P))) /\ drel d1 (skipn (S n) P) /\ same_rest d d1).
    { intros isz iidx cur k1 I1 I2 K1 EP. rewrite land_pow2 by lia.
      cbn [to_bits app] in EP. rewrite EP in *. cbn [firstn skipn length] in *.
      set (b := Z.testbit cur (Z.of_nat k1)). set (Q := to_bits k1 cur ++ _) in *.
      assert (EA : Z.lor (u16 (Z.shiftl acc 1)) (if negb b then 0 else 1) = 2 * acc + Z.b2z b).
      { rewrite Z.shiftl_mul_pow2 by lia. unfold u16. rewrite Z.mod_small by nia.
        destruct b; cbn [negb Z.b2z]; [|rewrite Z.lor_0_r; lia].
        rewrite Z.mul_comm. change (2 ^ 1) with 2.
        apply Z.bits_inj'. intros i Hi. rewrite Z.lor_spec.
        destruct (Z.eq_dec i 0) as [->|Ni]; [rewrite Z.testbit_even_0, Z.testbit_odd_0; reflexivity|].
        replace i with (Z.succ (i - 1)) by lia. rewrite Z.testbit_even_succ, Z.testbit_odd_succ by lia.
        change 1 with (2 * 0 + 1) at 2. rewrite Z.testbit_odd_succ, Z.bits_0 by lia. apply orb_false_r. }
      rewrite EA.
      destruct (IH (2 * acc + Z.b2z b) (mkD isz iidx (d_ocnt d) (d_oidx d) (d_head d) (d_st d) cur (Z.shiftr (2 ^ Z.of_nat k1) 1) (d_in d) (d_win d)) Q) as (d1 & E & D1 & S1).
      - split; [exact I1|]. split; [exact I2|]. split; [exact R2|]. exists k1. cbn. split; [lia|]. split; reflexivity.
      - lia.
      - destruct b; cbn [Z.b2z]; lia.
      - destruct b; cbn [Z.b2z]; nia.
      - exists d1. rewrite E. split; [|split; [exact D1|exact S1]]. do 3 f_equal.
        rewrite val_cons. rewrite firstn_length, Nat.min_l by lia. ring. }
    cbn [get_bits_loop]. destruct k as [|k].
    + rewrite Hb. change (Z.shiftr (2 ^ Z.of_nat 0) 1) with 0. cbn [Z.eqb].
      cbn [to_bits app] in HP.
      destruct RI as [[I1 I2]|RI].
      { exfalso. rewrite I1, I2 in HP. rewrite slice_neg_len in HP by lia. subst P. cbn in L. lia. }
      destruct (Z.eqb_spec (d_isz d) 0); [lia|].
      destruct (Z.leb_spec 0 (d_iidx d)); [|lia]. destruct (Z.ltb_spec (d_iidx d) (zlen (d_in d))); [|lia]. cbn [andb negb].
      rewrite slice_cons_znth in HP by lia.
      change (bits_of (?a :: ?b)) with (to_bits 8 a ++ bits_of b) in HP.
      set (c := znth 0 (d_iidx d) (d_in d)) in *.
      unfold u16 at 1. rewrite (Z.mod_small (d_iidx d + 1)) by lia.
      change 128 with (2 ^ Z.of_nat 7).
      destruct (Z.eqb_spec (d_iidx d + 1) (d_isz d)) as [Ee|Ne].
      * apply (ST 0 0 c 7%nat); [left; lia|lia|lia|]. rewrite HP. rewrite slice_neg_len by lia. rewrite slice_neg_len by lia. reflexivity.
      * cbn [d_isz d_iidx d_ocnt d_oidx d_head d_st d_cur d_bit d_in d_win].
        unfold u16 at 2. rewrite (Z.mod_small (d_iidx d + 1)) by lia.
        apply (ST (d_isz d) (d_iidx d + 1) c 7%nat); [right; lia|lia|lia|]. rewrite HP.
        replace (d_isz d - d_iidx d - 1) with (d_isz d - (d_iidx d + 1)) by lia. reflexivity.
    + rewrite Hb, shiftr_pow2.
      destruct (Z.eqb_spec (2 ^ Z.of_nat k) 0) as [E0|_]; [exfalso; revert E0; apply Z.pow_nonzero; lia|].
      apply (ST (d_isz d) (d_iidx d) (d_cur d) k); auto.
Qed.

Lemma get_bits_ok n d P : drel d P -> (1 <= n <= 8)%nat ->
  if (n <=? length P)%nat
  then exists d1, get_bits d n = Ok (d1, Some (val (firstn n P))) /\ drel d1 (skipn n P) /\ same_rest d d1
  else get_bits d n = Ok (d, None).
Proof.
  intros R Hn. pose proof R as (RI & R1 & R2 & k & Hk & Hb & HP). unfold get_bits.
  assert (LP : length P = (k + 8 * length (slice (d_iidx d) (d_isz d - d_iidx d) (d_in d)))%nat).
  { rewrite HP, app_length, to_bits_length, bits_of_length. reflexivity. }
  assert (LS : zlen (slice (d_iidx d) (d_isz d - d_iidx d) (d_in d)) = d_isz d - d_iidx d).
  { destruct RI as [[A B]|A]; [rewrite A, B, slice_neg_len by lia; reflexivity|]. apply zlen_slice_in; lia. }
  unfold zlen in LS.
  assert (BK : (d_bit d <? 2 ^ (Z.of_nat n - 1)) = (k <? n)%nat).
  { rewrite Hb. destruct (Nat.ltb_spec k n) as [C|C].
    - apply Z.ltb_lt. destruct k; [change (Z.shiftr (2 ^ Z.of_nat 0) 1) with 0; apply Z.pow_pos_nonneg; lia|].
      rewrite shiftr_pow2. apply Z.pow_lt_mono_r; lia.
    - apply Z.ltb_ge. destruct k; [lia|]. rewrite shiftr_pow2. apply Z.pow_le_mono_r; lia. }
  rewrite BK.
  destruct (Nat.leb_spec n (length P)) as [C|C].
  - assert (F : (d_isz d =? 0) && (k <? n)%nat = false).
    { destruct (Z.eqb_spec (d_isz d) 0); [|reflexivity]. cbn [andb]. apply Nat.ltb_ge. lia. }
    rewrite F. destruct (get_bits_loop_ok n 0 d P R C) as (d1 & E & D1 & S1).
    + lia.
    + pose proof (Z.pow_le_mono_r 2 (Z.of_nat n) 8). change (2 ^ 8) with 256 in *. lia.
    + exists d1. rewrite E. split; [reflexivity|auto].
  - assert (F : (d_isz d =? 0) && (k <? n)%nat = true).
    { destruct (Z.eqb_spec (d_isz d) 0); [|destruct RI as [[A B]|A]; lia]. cbn [andb]. apply Nat.ltb_lt. lia. }
    rewrite F. reflexivity.
Qed.

(* the window holds the last 256 bytes of the history *)
Definition wrel (d : hsd) (H : bytes) : Prop :=
  zlen (d_win d) = 256 /\ 0 <= d_head d < 65536 /\ 256 <= zlen H /\
  forall j, 1 <= j <= 256 -> znth 0 ((d_head d - j) mod 256) (d_win d) = znth 0 (zlen H - j) H.
Lemma land255 x : Z.land x 255 = x mod 256.
Proof. change 255 with (Z.ones 8). apply Z.land_ones. lia. Qed.
Lemma win_get_ok d H j : wrel d H -> 1 <= j <= 256 -> win_get d (d_head d - j) = znth 0 (zlen H - j) H.
Proof. intros (W1 & W2 & W3 & W) Hj. unfold win_get. rewrite land255. apply W; auto. Qed.
Lemma znth_app_l (a b : bytes) i : 0 <= i < zlen a -> znth 0 i (a ++ b) = znth 0 i a.
Proof. intros Hi. unfold znth. apply app_nth1. unfold zlen in Hi. lia. Qed.
Lemma znth_app_r (a b : bytes) i : zlen a <= i -> znth 0 i (a ++ b) = znth 0 (i - zlen a) b.
Proof. intros Hi. unfold znth, zlen in *. rewrite app_nth2 by lia. f_equal. lia. Qed.
Lemma znth_splice1 (l : bytes) p c i : 0 <= p < zlen l -> 0 <= i < zlen l ->
  znth 0 i (splice p [c] l) = if i =? p then c else znth 0 i l.
Proof.
  intros Hp Hi. unfold splice. change (zlen [c]) with 1.
  assert (Lt : zlen (ztake p l) = p) by (rewrite zlen_ztake; lia).
  destruct (Z.eqb_spec i p) as [->|N].
  - rewrite znth_app_r by lia. rewrite Lt, Z.sub_diag. reflexivity.
  - destruct (Z.lt_ge_cases i p).
    + rewrite znth_app_l by lia. unfold znth, ztake. rewrite <- (firstn_skipn (Z.to_nat p) l) at 2. rewrite app_nth1; [reflexivity|]. unfold zlen in *. rewrite firstn_length. lia.
    + rewrite znth_app_r by lia. rewrite Lt. change ([c] ++ ?x) with (c :: x). unfold znth, zdrop.
      replace (Z.to_nat (i - p)) with (S (Z.to_nat (i - p - 1))) by lia. cbn [nth].
      rewrite <- (firstn_skipn (Z.to_nat (p + 1)) l) at 2.
      unfold zlen in *. rewrite app_nth2 by (rewrite firstn_length; lia). f_equal. rewrite firstn_length. lia.
Qed.
Lemma zlen_splice1 (l : bytes) p c : 0 <= p < zlen l -> zlen (splice p [c] l) = zlen l.
Proof.
  intros Hp. unfold splice. rewrite !zlen_app, zlen_ztake, zlen_zdrop. change (zlen [c]) with 1. lia.
Qed.
Lemma win_put_ok d H c : wrel d H -> wrel (win_put d c) (H ++ [c]).
Proof.
  intros (W1 & W2 & W3 & W). unfold wrel, win_put. cbn [d_win d_head]. rewrite land255.
  pose proof (Z.mod_pos_bound (d_head d) 256).
  assert (L1 : zlen (splice (d_head d mod 256) [c] (d_win d)) = 256) by (rewrite zlen_splice1; lia).
  split; [exact L1|]. unfold u16. pose proof (Z.mod_pos_bound (d_head d + 1) 65536). split; [lia|].
  rewrite zlen_app. change (zlen [c]) with 1. split; [lia|]. intros j Hj.
  assert (E : ((d_head d + 1) mod 65536 - j) mod 256 = (d_head d + 1 - j) mod 256).
  { change 65536 with (256 * 256). rewrite Z.rem_mul_r by lia.
    replace ((d_head d + 1) mod 256 + 256 * (((d_head d + 1) / 256) mod 256) - j)
      with ((d_head d + 1) mod 256 - j + ((d_head d + 1) / 256) mod 256 * 256) by ring.
    rewrite Z.mod_add by lia. rewrite Zminus_mod_idemp_l. reflexivity. }
  rewrite E. rewrite znth_splice1 by (pose proof (Z.mod_pos_bound (d_head d + 1 - j) 256); lia).
  destruct (Z.eqb_spec ((d_head d + 1 - j) mod 256) (d_head d mod 256)) as [Q|Q].
  - assert (j = 1).
    { assert (M : ((d_head d + 1 - j) - d_head d) mod 256 = 0) by (rewrite Zminus_mod, Q, Z.sub_diag; reflexivity).
      replace (d_head d + 1 - j - d_head d) with (1 - j) in M by lia. apply Z.mod_divide in M; [|lia]. destruct M as [q M]. lia. }
    subst j. rewrite znth_app_r by lia. replace (zlen H + 1 - 1 - zlen H) with 0 by lia. reflexivity.
  - assert (j <> 1) by (intros ->; apply Q; f_equal; lia).
    rewrite znth_app_l by lia. replace (d_head d + 1 - j) with (d_head d - (j - 1)) by lia. rewrite W by lia. f_equal. lia.
Qed.
Definition same_in (d e : hsd) : Prop :=
  d_isz e = d_isz d /\ d_iidx e = d_iidx d /\ d_cur e = d_cur d /\ d_bit e = d_bit d /\ d_in e = d_in d.
Lemma drel_same d e P : same_in d e -> drel d P -> drel e P.
Proof. intros (A & B & C & D & E). unfold drel. rewrite A, B, C, D, E. auto. Qed.
Lemma same_in_refl d : same_in d d.
Proof. repeat split. Qed.
Lemma wrel_same d e H : d_win e = d_win d -> d_head e = d_head d -> wrel d H -> wrel e H.
Proof. intros A B. unfold wrel. rewrite A, B. auto. Qed.

Lemma push_ok osz out c : zlen out < osz -> push_byte osz out c = Ok (out ++ [c]).
Proof. intros L. unfold push_byte. destruct (Z.ltb_spec (zlen out) osz); [reflexivity|lia]. Qed.
Lemma d_copy_ok n : forall osz d out H, wrel d H -> 1 <= d_oidx d <= 256 -> zlen out + Z.of_nat n <= osz ->
  exists d1 x, d_copy osz n d out = Ok (d1, out ++ x) /\ length x = n /\ repeat_back n (d_oidx d) H = H ++ x /\
    wrel d1 (H ++ x) /\ same_in d d1 /\ d_ocnt d1 = d_ocnt d /\ d_oidx d1 = d_oidx d /\ d_st d1 = d_st d.
Proof.
  induction n as [|n IH]; intros osz d out H W I L.
  - exists d, []. cbn [d_copy repeat_back]. rewrite !app_nil_r. repeat split; auto; apply W.
  - cbn [d_copy repeat_back]. rewrite push_ok by lia. cbn [bind]. rewrite (win_get_ok d H) by auto.
    set (c := znth 0 (zlen H - d_oidx d) H).
    destruct (IH osz (win_put d c) (out ++ [c]) (H ++ [c])) as (d1 & x & E & Lx & RB & W1 & S1 & O1 & O2 & O3).
    + apply win_put_ok; auto.
    + exact I.
    + rewrite zlen_app. change (zlen [c]) with 1. lia.
    + exists d1, (c :: x). cbn [win_put d_oidx d_ocnt d_st] in *. rewrite E. rewrite <- app_assoc. change ([c] ++ x) with (c :: x).
      split; [reflexivity|]. split; [cbn; lia|]. split; [rewrite RB, <- app_assoc; reflexivity|].
      rewrite <- app_assoc in W1. repeat split; auto; try apply W1; apply S1.
Qed.

Definition tbits (ts : list token) : list bool := flat_map token_bits ts.
Lemma tbits_snoc ts t : tbits (ts ++ [t]) = tbits ts ++ token_bits t.
Proof. unfold tbits. rewrite flat_map_app. cbn. rewrite app_nil_r. reflexivity. Qed.
(* the decoder after sinking [S] and delivering [O]; [P]: bits left *)
Definition dinv (d : hsd) (S O : bytes) (P : list bool) : Prop :=
  drel d P /\ wrel d (zeros 256 ++ O) /\
  exists ts, Forall token_ok ts /\
  match d_st d with
  | DTag => bits_of S = tbits ts ++ P /\ O = expand ts
  | DLit => bits_of S = tbits ts ++ true :: P /\ O = expand ts
  | DIdx => bits_of S = tbits ts ++ false :: P /\ O = expand ts /\ d_oidx d = 0
  | DCnt => bits_of S = tbits ts ++ false :: to_bits 8 (d_oidx d - 1) ++ P /\ O = expand ts /\ d_ocnt d = 0 /\ 1 <= d_oidx d <= 256
  | DRef => exists n, token_ok (Ref (d_oidx d) n) /\ bits_of S = tbits (ts ++ [Ref (d_oidx d) n]) ++ P /\
              1 <= d_ocnt d <= 128 /\
              repeat_back (Z.to_nat (d_ocnt d)) (d_oidx d) (zeros 256 ++ O) = hist (ts ++ [Ref (d_oidx d) n])
  end.
Definition rank (d : hsd) (P : list bool) : nat := (length P + match d_st d with DRef => 1 | _ => 0 end)%nat.
(* the state in which the decoder waits for input *)
Definition waiting (d : hsd) (P : list bool) : Prop :=
  match d_st d with DTag => P = [] | DLit | DIdx => (length P < 8)%nat | DCnt => (length P < 7)%nat | DRef => False end.

Lemma firstn_split {A} n (l : list A) : l = firstn n l ++ skipn n l.
Proof. symmetry. apply firstn_skipn. Qed.
Lemma expand_lit ts c : expand (ts ++ [Lit c]) = expand ts ++ [c].
Proof.
  assert (E : zeros 256 ++ expand (ts ++ [Lit c]) = zeros 256 ++ (expand ts ++ [c])).
  { rewrite <- hist_expand, hist_snoc, hist_expand. cbn [expand1]. rewrite app_assoc. reflexivity. }
  apply app_inv_head in E. exact E.
Qed.

Lemma d_step_ok osz d S O out P : dinv d S (O ++ out) P -> zlen out <= osz ->
  exists d1 out1 P1, d_step osz d out = Ok (d1, out1) /\ dinv d1 S (O ++ out1) P1 /\ zlen out1 <= osz /\
    (exists x, out1 = out ++ x) /\
    (if dstate_eqb (d_st d1) (d_st d) then zlen out1 = osz \/ waiting d1 P1 else (rank d1 P1 < rank d P)%nat).
Proof.
  intros (R & W & ts & Ht & I) L. unfold d_step.
  destruct (d_st d) eqn:St.
  - (* tag *)
    unfold d_tag. pose proof (get_bits_ok 1 d P R ltac:(lia)) as G.
    destruct (Nat.leb_spec 1 (length P)) as [C|C].
    + destruct G as (d1 & E & R1 & (S1 & S2 & S3 & S4 & S5)). rewrite E. cbn [bind].
      destruct P as [|b P]; [cbn in C; lia|]. cbn [firstn skipn] in *.
      destruct I as [I1 I2].
      assert (V : val [b] = Z.b2z b) by (destruct b; reflexivity). rewrite V.
      destruct b; cbn [Z.b2z Z.eqb bind].
      * exists (set_dst d1 DLit), out, P. split; [reflexivity|]. cbn [set_dst d_st]. rewrite ?St in *. cbn [dstate_eqb].
        split; [split; [exact R1|]; split; [apply (wrel_same d); assumption|]; exists ts; split; [exact Ht|]; cbn [set_dst d_st d_oidx]; auto|].
        split; [exact L|]. split; [exists []; rewrite app_nil_r; reflexivity|]. unfold rank. rewrite ?St. cbn [set_dst win_put d_st length]. lia.
      * exists (mkD (d_isz d1) (d_iidx d1) (d_ocnt d1) 0 (d_head d1) DIdx (d_cur d1) (d_bit d1) (d_in d1) (d_win d1)), out, P.
        split; [reflexivity|]. cbn [d_st]. rewrite ?St in *. cbn [dstate_eqb].
        split; [split; [exact R1|]; split; [apply (wrel_same d); assumption|]; exists ts; split; [exact Ht|]; cbn [set_dst d_st d_oidx]; auto|].
        split; [exact L|]. split; [exists []; rewrite app_nil_r; reflexivity|]. unfold rank. rewrite ?St. cbn [set_dst win_put d_st length]. lia.
    + rewrite G. cbn [bind]. exists d, out, P. split; [reflexivity|]. rewrite ?St. cbn [dstate_eqb].
      split; [split; [exact R|]; split; [exact W|]; exists ts; rewrite ?St; auto|].
      split; [exact L|]. split; [exists []; rewrite app_nil_r; reflexivity|]. right. unfold waiting. rewrite ?St.
      destruct P; [reflexivity|cbn in C; lia].
  - (* literal *)
    unfold d_lit. destruct (Z.ltb_spec (zlen out) osz) as [Lt|Ge].
    2:{ exists d, out, P. split; [reflexivity|]. rewrite ?St. cbn [dstate_eqb].
        split; [split; [exact R|]; split; [exact W|]; exists ts; rewrite ?St; auto|].
        split; [exact L|]. split; [exists []; rewrite app_nil_r; reflexivity|]. left. lia. }
    pose proof (get_bits_ok 8 d P R ltac:(lia)) as G.
    destruct (Nat.leb_spec 8 (length P)) as [C|C].
    + destruct G as (d1 & E & R1 & (S1 & S2 & S3 & S4 & S5)). rewrite E. cbn [bind].
      pose proof (val_bound (firstn 8 P)) as V. rewrite firstn_length, Nat.min_l in V by lia. change (2 ^ Z.of_nat 8) with 256 in V.
      set (c := val (firstn 8 P)) in *. rewrite land255, (Z.mod_small c) by lia. rewrite push_ok by lia. cbn [bind].
      exists (set_dst (win_put d1 c) DTag), (out ++ [c]), (skipn 8 P). split; [reflexivity|]. cbn [set_dst d_st]. rewrite ?St. cbn [dstate_eqb].
      destruct I as [I1 I2].
      split.
      { split; [exact R1|]. split.
        - rewrite !app_assoc. apply (wrel_same (win_put d1 c)); try reflexivity. apply win_put_ok. rewrite <- app_assoc. apply (wrel_same d); assumption.
        - exists (ts ++ [Lit c]). split; [apply Forall_app; split; [exact Ht|]; constructor; [exact V|constructor]|].
          split.
          + rewrite tbits_snoc, I1, <- app_assoc. f_equal. cbn [token_bits app]. f_equal.
            rewrite (firstn_split 8 P) at 1. f_equal. unfold c.
            rewrite <- (to_bits_val (firstn 8 P)) at 1. rewrite firstn_length, Nat.min_l by lia. reflexivity.
          + rewrite expand_lit, <- I2, app_assoc. reflexivity. }
      rewrite zlen_app. change (zlen [c]) with 1. split; [lia|]. split; [eexists; reflexivity|].
      unfold rank. rewrite ?St. cbn [set_dst win_put d_st]. rewrite skipn_length. lia.
    + rewrite G. cbn [bind]. exists d, out, P. split; [reflexivity|]. rewrite ?St. cbn [dstate_eqb].
      split; [split; [exact R|]; split; [exact W|]; exists ts; rewrite ?St; auto|].
      split; [exact L|]. split; [exists []; rewrite app_nil_r; reflexivity|]. right. unfold waiting. rewrite ?St. exact C.
  - (* index *)
    unfold d_idx. pose proof (get_bits_ok 8 d P R ltac:(lia)) as G.
    destruct (Nat.leb_spec 8 (length P)) as [C|C].
    + destruct G as (d1 & E & R1 & (S1 & S2 & S3 & S4 & S5)). rewrite E. cbn [bind].
      pose proof (val_bound (firstn 8 P)) as V. rewrite firstn_length, Nat.min_l in V by lia. change (2 ^ Z.of_nat 8) with 256 in V.
      set (c := val (firstn 8 P)) in *. destruct I as (I1 & I2 & I3). rewrite S2, I3, Z.lor_0_l. unfold u16. rewrite (Z.mod_small (c + 1)) by lia.
      eexists _, out, (skipn 8 P). split; [reflexivity|]. cbn [d_st]. rewrite ?St. cbn [dstate_eqb].
      split.
      { split; [exact R1|]. split; [apply (wrel_same d); assumption|]. exists ts. split; [exact Ht|]. cbn [d_st d_oidx d_ocnt].
        split; [|split; [exact I2|split; [reflexivity|lia]]]. rewrite I1. do 2 f_equal.
        rewrite (firstn_split 8 P) at 1. f_equal. replace (c + 1 - 1) with c by lia. unfold c.
        rewrite <- (to_bits_val (firstn 8 P)) at 1. rewrite firstn_length, Nat.min_l by lia. reflexivity. }
      split; [exact L|]. split; [exists []; rewrite app_nil_r; reflexivity|]. unfold rank. rewrite ?St. cbn [set_dst win_put d_st]. rewrite skipn_length. lia.
    + rewrite G. cbn [bind]. exists d, out, P. split; [reflexivity|]. rewrite ?St. cbn [dstate_eqb].
      split; [split; [exact R|]; split; [exact W|]; exists ts; rewrite ?St; auto|].
      split; [exact L|]. split; [exists []; rewrite app_nil_r; reflexivity|]. right. unfold waiting. rewrite ?St. exact C.
  - (* count *)
    unfold d_cnt. pose proof (get_bits_ok 7 d P R ltac:(lia)) as G.
    destruct (Nat.leb_spec 7 (length P)) as [C|C].
    + destruct G as (d1 & E & R1 & (S1 & S2 & S3 & S4 & S5)). rewrite E. cbn [bind].
      pose proof (val_bound (firstn 7 P)) as V. rewrite firstn_length, Nat.min_l in V by lia. change (2 ^ Z.of_nat 7) with 128 in V.
      set (c := val (firstn 7 P)) in *. destruct I as (I1 & I2 & I3 & I4). rewrite S1, I3, Z.lor_0_l. unfold u16. rewrite (Z.mod_small (c + 1)) by lia.
      eexists _, out, (skipn 7 P). split; [reflexivity|]. cbn [d_st]. rewrite ?St. cbn [dstate_eqb].
      split.
      { split; [exact R1|]. split; [apply (wrel_same d); assumption|]. exists ts. split; [exact Ht|]. cbn [d_st d_oidx d_ocnt].
        exists (c + 1). rewrite S2. assert (TO : token_ok (Ref (d_oidx d) (c + 1))) by (cbn [token_ok]; lia). split; [exact TO|].
        split; [|split; [lia|]].
        - rewrite I1, tbits_snoc, <- app_assoc. f_equal. cbn [token_bits app]. rewrite <- app_assoc. do 2 f_equal.
          rewrite (firstn_split 7 P) at 1. f_equal. replace (c + 1 - 1) with c by lia. unfold c.
          rewrite <- (to_bits_val (firstn 7 P)) at 1. rewrite firstn_length, Nat.min_l by lia. reflexivity.
        - rewrite hist_snoc, hist_expand, <- I2. reflexivity. }
      split; [exact L|]. split; [exists []; rewrite app_nil_r; reflexivity|]. unfold rank. rewrite ?St. cbn [set_dst win_put d_st]. rewrite skipn_length. lia.
    + rewrite G. cbn [bind]. exists d, out, P. split; [reflexivity|]. rewrite ?St. cbn [dstate_eqb].
      split; [split; [exact R|]; split; [exact W|]; exists ts; rewrite ?St; auto|].
      split; [exact L|]. split; [exists []; rewrite app_nil_r; reflexivity|]. right. unfold waiting. rewrite ?St. exact C.
  - (* back reference *)
    unfold d_ref. destruct I as (n & TO & I1 & I2 & I3).
    destruct (Z.gtb_spec (osz - zlen out) 0) as [Rm|Rm].
    2:{ exists d, out, P. split; [reflexivity|]. rewrite ?St. cbn [dstate_eqb].
        split; [split; [exact R|]; split; [exact W|]; exists ts; rewrite ?St; split; [exact Ht|]; exists n; auto|].
        split; [exact L|]. split; [exists []; rewrite app_nil_r; reflexivity|]. left. lia. }
    set (cnt := if d_ocnt d <? osz - zlen out then d_ocnt d else osz - zlen out).
    assert (Hc : 1 <= cnt <= d_ocnt d /\ cnt <= osz - zlen out /\ (cnt = d_ocnt d \/ cnt = osz - zlen out)).
    { unfold cnt. destruct (Z.ltb_spec (d_ocnt d) (osz - zlen out)); lia. }
    clearbody cnt. pose proof TO as [TO1 TO2].
    destruct (d_copy_ok (Z.to_nat cnt) osz d out (zeros 256 ++ O ++ out) W ltac:(lia) ltac:(lia)) as (d1 & x & E & Lx & RB & W1 & S1 & O1 & O2 & O3).
    rewrite E. cbn [bind]. rewrite O1, O2.
    assert (Lz : zlen (out ++ x) = zlen out + cnt) by (rewrite zlen_app; unfold zlen at 2; lia).
    assert (Wn : wrel d1 (zeros 256 ++ O ++ out ++ x)) by (rewrite <- !app_assoc in W1; exact W1).
    destruct (Z.eqb_spec (d_ocnt d - cnt) 0) as [Z0|Nz].
    + eexists _, (out ++ x), P. split; [reflexivity|]. cbn [d_st]. rewrite ?St. cbn [dstate_eqb].
      split.
      { split; [apply (drel_same d); [exact S1|exact R]|]. split; [apply (wrel_same d1); [reflexivity|reflexivity|exact Wn]|].
        exists (ts ++ [Ref (d_oidx d) n]). split; [apply Forall_app; split; [exact Ht|]; constructor; [exact TO|constructor]|].
        cbn [d_st]. split; [exact I1|].
        assert (EE : zeros 256 ++ O ++ out ++ x = zeros 256 ++ expand (ts ++ [Ref (d_oidx d) n])).
        { rewrite <- hist_expand, <- I3. replace (d_ocnt d) with cnt by lia. rewrite RB, <- !app_assoc. reflexivity. }
        apply app_inv_head in EE. exact EE. }
      split; [lia|]. split; [eexists; reflexivity|]. unfold rank. rewrite ?St. cbn [set_dst win_put d_st]. lia.
    + eexists _, (out ++ x), P. split; [reflexivity|]. cbn [d_st]. rewrite ?St. cbn [dstate_eqb].
      split.
      { split; [apply (drel_same d); [exact S1|exact R]|]. split; [apply (wrel_same d1); [reflexivity|reflexivity|exact Wn]|].
        exists ts. split; [exact Ht|]. cbn [d_st d_oidx d_ocnt]. exists n. split; [exact TO|]. split; [exact I1|].
        split; [lia|]. rewrite <- I3. replace (Z.to_nat (d_ocnt d)) with (Z.to_nat cnt + Z.to_nat (d_ocnt d - cnt))%nat by lia.
        rewrite repeat_back_add, RB, <- !app_assoc. reflexivity. }
      split; [lia|]. split; [eexists; reflexivity|]. left. lia.
Qed.

Lemma d_poll_loop_ok fuel : forall osz d S O out P, dinv d S (O ++ out) P -> zlen out <= osz -> (rank d P < fuel)%nat ->
  exists d1 out1 P1 more, d_poll_loop fuel osz d out = Ok (d1, out1, more) /\ dinv d1 S (O ++ out1) P1 /\ zlen out1 <= osz /\
    more = (zlen out1 =? osz) /\ (more = false -> waiting d1 P1).
Proof.
  induction fuel as [|fuel IH]; intros osz d S O out P I L F; [lia|]. cbn [d_poll_loop].
  destruct (d_step_ok osz d S O out P I L) as (d1 & out1 & P1 & E & I1 & L1 & _ & M). rewrite E. cbn [bind].
  destruct (dstate_eqb (d_st d1) (d_st d)) eqn:Q.
  - exists d1, out1, P1, (zlen out1 =? osz). split; [reflexivity|]. split; [exact I1|]. split; [exact L1|]. split; [reflexivity|].
    intros N. apply Z.eqb_neq in N. destruct M; [contradiction|assumption].
  - apply (IH osz d1 S O out1 P1); auto. lia.
Qed.
Lemma rank_bound d P : drel d P -> Z.of_nat (rank d P) <= 8 * d_isz d + 8.
Proof.
  intros (RI & R1 & R2 & k & Hk & Hb & HP). unfold rank.
  assert (LS : zlen (slice (d_iidx d) (d_isz d - d_iidx d) (d_in d)) = d_isz d - d_iidx d).
  { destruct RI as [[A B]|A]; [rewrite A, B, slice_neg_len by lia; reflexivity|]. apply zlen_slice_in; lia. }
  unfold zlen in LS. rewrite HP, app_length, to_bits_length, bits_of_length. destruct (d_st d); lia.
Qed.
Lemma d_poll_ok osz d S O P : dinv d S O P -> 0 <= osz ->
  exists d1 out P1 more, d_poll osz d = Ok (d1, out, more) /\ dinv d1 S (O ++ out) P1 /\ zlen out <= osz /\
    more = (zlen out =? osz) /\ (more = false -> waiting d1 P1).
Proof.
  intros I L. unfold d_poll. apply (d_poll_loop_ok _ osz d S O [] P).
  - rewrite app_nil_r. exact I.
  - exact L.
  - destruct I as (R & _). pose proof (rank_bound d P R). lia.
Qed.

Lemma dinv_reset : dinv d_reset [] [] [].
Proof.
  split; [|split].
  - split; [left; split; reflexivity|]. split; [cbn; lia|]. split; [reflexivity|]. exists 0%nat. split; [lia|]. split; reflexivity.
  - split; [reflexivity|]. split; [cbn; lia|]. rewrite app_nil_r. split; [vm_compute; discriminate|]. intros j Hj.
    assert (Z0 : forall i n, znth 0 i (zeros n) = 0).
    { intros i n. unfold znth, zeros. generalize (Z.to_nat i), (Z.to_nat n). induction n0; intros [|m]; cbn; auto.
      all: destruct n0; auto. }
    cbn [d_win d_reset d_head]. rewrite !Z0. reflexivity.
  - exists []. split; [constructor|]. cbn. auto.
Qed.
