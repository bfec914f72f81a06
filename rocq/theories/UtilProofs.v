(* UtilProofs.v *)
From Coq Require Import Lia.
From Verif Require Import Base BaseLemmas HeaderModel UtilModel UtilSpec.

(* ---- bin2hex ---- *)
Definition hex2 (b : Z) : bytes := [hexc ((b / 16) mod 16); hexc (b mod 16)].
Lemma poke_in p q c d : poke (p ++ c :: q) (zlen p) d = Ok (p ++ d :: q).
Proof.
  unfold poke. pose proof (zlen_nonneg p). pose proof (zlen_nonneg q).
  rewrite zlen_app, zlen_cons.
  destruct (Z.leb_spec 0 (zlen p)); [|lia]. destruct (Z.ltb_spec (zlen p) (zlen p + (1 + zlen q))); [|lia].
  cbn [andb]. f_equal. unfold splice. rewrite ztake_app_l by lia. rewrite ztake_all by lia.
  rewrite zdrop_app_r by (change (zlen [d]) with 1; lia). change (zlen [d]) with 1.
  replace (zlen p + 1 - zlen p) with 1 by lia. reflexivity.
Qed.
Lemma poke_end p d : poke p (zlen p) d = UB.
Proof.
  unfold poke. destruct (Z.ltb_spec (zlen p) (zlen p)); [lia|]. rewrite andb_false_r. reflexivity.
Qed.
Lemma bin2hex_loop_fits data : forall p q,
  2 * zlen data <= zlen q ->
  bin2hex_loop data (zlen p) (p ++ q) =
    (p ++ flat_map hex2 data ++ zdrop (2 * zlen data) q, Ok (zlen p + 2 * zlen data)).
Proof.
  induction data as [|b r IH]; intros p q H.
  - cbn [bin2hex_loop flat_map]. change (zlen (@nil Z)) with 0. rewrite zdrop_0. cbn [app]. do 2 f_equal. lia.
  - pose proof (zlen_nonneg r). pose proof (zlen_nonneg p). rewrite zlen_cons in H.
    destruct q as [|x q]; [change (zlen (@nil Z)) with 0 in H; lia|].
    destruct q as [|y q]; [change (zlen [x]) with 1 in H; lia|].
    rewrite !zlen_cons in H. pose proof (zlen_nonneg q).
    cbn [bin2hex_loop]. rewrite poke_in.
    rewrite zlen_app, !zlen_cons.
    rewrite Z.gtb_ltb. destruct (Z.ltb_spec (zlen p + (1 + (1 + zlen q))) (zlen p + 1)); [lia|].
    assert (E : forall c, p ++ c :: y :: q = (p ++ [c]) ++ y :: q) by (intro; rewrite <- app_assoc; reflexivity).
    rewrite E. replace (zlen p + 1) with (zlen (p ++ [hexc ((b / 16) mod 16)])) by (rewrite zlen_app; reflexivity).
    rewrite poke_in.
    rewrite Z.gtb_ltb. destruct (Z.ltb_spec (zlen p + (1 + (1 + zlen q))) (zlen p + 2)); [lia|].
    rewrite <- app_assoc. cbn [app].
    assert (E2 : forall c d, p ++ c :: d :: q = (p ++ [c; d]) ++ q) by (intros; rewrite <- app_assoc; reflexivity).
    rewrite E2. replace (zlen p + 2) with (zlen (p ++ [hexc ((b / 16) mod 16); hexc (b mod 16)])) by (rewrite zlen_app; reflexivity).
    rewrite IH by lia. cbn [flat_map]. rewrite zlen_app. change (zlen [hexc ((b / 16) mod 16); hexc (b mod 16)]) with 2.
    rewrite <- !app_assoc. f_equal; [|f_equal; lia].
    replace (2 * (1 + zlen r)) with (2 * zlen r + 2) by lia.
    rewrite <- (zdrop_zdrop (2 * zlen r) 2) by lia. reflexivity.
Qed.
Lemma bin2hex_loop_short data : forall p q,
  zlen q < 2 * zlen data ->
  snd (bin2hex_loop data (zlen p) (p ++ q)) = UB.
Proof.
  induction data as [|b r IH]; intros p q H.
  - pose proof (zlen_nonneg q). change (zlen (@nil Z)) with 0 in H. lia.
  - rewrite zlen_cons in H. cbn [bin2hex_loop].
    destruct q as [|x q]; [rewrite app_nil_r, poke_end; reflexivity|].
    rewrite poke_in. rewrite zlen_cons in H. pose proof (zlen_nonneg q). pose proof (zlen_nonneg p).
    rewrite zlen_app, !zlen_cons.
    rewrite Z.gtb_ltb. destruct (Z.ltb_spec (zlen p + (1 + zlen q)) (zlen p + 1)); [lia|].
    destruct q as [|y q].
    + replace (zlen p + 1) with (zlen (p ++ [hexc ((b / 16) mod 16)])) by (rewrite zlen_app; reflexivity).
      rewrite poke_end. reflexivity.
    + assert (E : forall c, p ++ c :: y :: q = (p ++ [c]) ++ y :: q) by (intro; rewrite <- app_assoc; reflexivity).
      rewrite E. replace (zlen p + 1) with (zlen (p ++ [hexc ((b / 16) mod 16)])) by (rewrite zlen_app; reflexivity).
      rewrite poke_in. rewrite zlen_cons in *. pose proof (zlen_nonneg q).
      rewrite Z.gtb_ltb. destruct (Z.ltb_spec (zlen p + (1 + (1 + zlen q))) (zlen p + 2)); [lia|].
      rewrite <- app_assoc. cbn [app].
      assert (E2 : forall c d, p ++ c :: d :: q = (p ++ [c; d]) ++ q) by (intros; rewrite <- app_assoc; reflexivity).
      rewrite E2. replace (zlen p + 2) with (zlen (p ++ [hexc ((b / 16) mod 16); hexc (b mod 16)])) by (rewrite zlen_app; reflexivity).
      apply IH. lia.
Qed.
Lemma hex2_len data : zlen (flat_map hex2 data) = 2 * zlen data.
Proof. induction data as [|b r IH]; [reflexivity|]. cbn [flat_map hex2 app]. rewrite !zlen_cons, IH. lia. Qed.
Lemma bin2hex_fits data buf : 2 * zlen data + 1 <= zlen buf ->
  bin2hex data buf = (flat_map hex2 data ++ [0] ++ zdrop (2 * zlen data + 1) buf, Ok tt).
Proof.
  intros H. unfold bin2hex. pose proof (zlen_nonneg data).
  pose proof (bin2hex_loop_fits data [] buf ltac:(lia)) as L. cbn [app] in L. change (zlen (@nil Z)) with 0 in L.
  rewrite L. pose proof (zlen_zdrop (2 * zlen data) buf) as ZD.
  destruct (zdrop (2 * zlen data) buf) as [|x q] eqn:E; [change (zlen (@nil Z)) with 0 in ZD; lia|].
  replace (0 + 2 * zlen data) with (zlen (flat_map hex2 data)) by (rewrite hex2_len; lia).
  rewrite poke_in. cbn [app]. do 3 f_equal.
  replace (2 * zlen data + 1) with (1 + 2 * zlen data) by lia.
  rewrite <- zdrop_zdrop by lia. rewrite E. reflexivity.
Qed.
Lemma bin2hex_overflows data buf : zlen buf < 2 * zlen data + 1 -> snd (bin2hex data buf) = UB.
Proof.
  intros H. unfold bin2hex.
  destruct (Z.lt_ge_cases (zlen buf) (2 * zlen data)) as [S|S].
  - pose proof (bin2hex_loop_short data [] buf S) as L. cbn [app] in L. change (zlen (@nil Z)) with 0 in L.
    destruct (bin2hex_loop data 0 buf) as [b r]. cbn [snd] in L. rewrite L. reflexivity.
  - pose proof (bin2hex_loop_fits data [] buf ltac:(lia)) as L. cbn [app] in L. change (zlen (@nil Z)) with 0 in L.
    rewrite L. rewrite zdrop_all by lia. rewrite app_nil_r.
    replace (0 + 2 * zlen data) with (zlen (flat_map hex2 data)) by (rewrite hex2_len; lia).
    rewrite poke_end. reflexivity.
Qed.
Lemma hexc_digit b : 0 <= b < 16 -> hex_digit (hexc b) b.
Proof. intros H. unfold hexc, hex_digit. rewrite Z.gtb_ltb. destruct (Z.ltb_spec 9 b); lia. Qed.
Lemma hexc_range b : 0 <= b < 16 -> 48 <= hexc b <= 57 \/ 97 <= hexc b <= 102.
Proof. intros H. unfold hexc. rewrite Z.gtb_ltb. destruct (Z.ltb_spec 9 b); lia. Qed.
Lemma hex2_text data : bytes_ok data -> hex_text (flat_map hex2 data) data.
Proof.
  induction 1 as [|b r B _ IH]; [constructor|]. cbn [flat_map hex2 app]. unfold byte_ok in B.
  replace b with (16 * (b / 16 mod 16) + b mod 16) at 3 by lia.
  constructor; [apply hexc_digit; lia..|exact IH].
Qed.
Lemma hex2_chars data c : In c (flat_map hex2 data) -> 48 <= c <= 57 \/ 97 <= c <= 102.
Proof.
  rewrite in_flat_map. intros (b & _ & [<-|[<-|[]]]); apply hexc_range; lia.
Qed.

(* ---- number formats ---- *)
Fixpoint hex_fix (upper : bool) (n : nat) (v : Z) : bytes :=
  match n with O => [] | S k => hex_fix upper k (v / 16) ++ [hexd upper (v mod 16)] end.
Lemma hex_fix_len upper n : forall v, length (hex_fix upper n v) = n.
Proof. induction n; intros; cbn [hex_fix]; [reflexivity|]. rewrite app_length, IHn. cbn. lia. Qed.
Lemma hex_fix_0 upper n : hex_fix upper n 0 = repeat 48 n.
Proof.
  induction n; [reflexivity|]. cbn [hex_fix]. change (0 / 16) with 0. rewrite IHn.
  change [hexd upper (0 mod 16)] with (repeat 48 1). rewrite <- repeat_app. f_equal. lia.
Qed.
Lemma hex_min_fix upper : forall n fuel v, (n < fuel)%nat -> 0 <= v < 16 ^ Z.of_nat (S n) ->
  (length (hex_min upper fuel v) <= S n)%nat /\
  repeat 48 (S n - length (hex_min upper fuel v)) ++ hex_min upper fuel v = hex_fix upper (S n) v.
Proof.
  induction n as [|n IH]; intros fuel v F V.
  - destruct fuel as [|k]; [lia|]. change (16 ^ Z.of_nat 1) with 16 in V.
    cbn [hex_min]. destruct (Z.ltb_spec v 16); [|lia]. cbn [app length hex_fix]. split; [lia|reflexivity].
  - destruct fuel as [|k]; [lia|]. cbn [hex_min].
    destruct (Z.ltb_spec v 16).
    + cbn [app length]. split; [lia|]. cbn [hex_fix]. rewrite (Z.div_small v 16) by lia.
      change (0 / 16) with 0. rewrite hex_fix_0.
      replace (S (S n) - 1)%nat with (n + 1)%nat by lia. rewrite repeat_app. rewrite <- !app_assoc. reflexivity.
    + assert (V2 : 0 <= v / 16 < 16 ^ Z.of_nat (S n)).
      { split; [apply Z.div_pos; lia|]. apply Z.div_lt_upper_bound; [lia|].
        replace (Z.of_nat (S (S n))) with (1 + Z.of_nat (S n)) in V by lia. rewrite Z.pow_add_r in V by lia. lia. }
      destruct (IH k (v / 16) ltac:(lia) V2) as [L E].
      rewrite app_length. cbn [length]. split; [lia|].
      change (hex_fix upper (S (S n)) v) with (hex_fix upper (S n) (v / 16) ++ [hexd upper (v mod 16)]).
      rewrite <- E. rewrite <- app_assoc. do 2 f_equal. lia.
Qed.
Lemma hex_pad_fix upper n v : (0 < n <= 16)%nat -> 0 <= v < 16 ^ Z.of_nat n ->
  hex_pad upper (Z.of_nat n) v = hex_fix upper n v.
Proof.
  intros N V. destruct n as [|n]; [lia|].
  destruct (hex_min_fix upper n 16 v ltac:(lia) V) as [L E]. unfold hex_pad. cbv zeta.
  rewrite <- E. do 2 f_equal. unfold zlen. lia.
Qed.
Lemma hex_fix_byte upper n v b : 0 <= b < 256 ->
  hex_fix upper (S (S n)) (256 * v + b) = hex_fix upper n v ++ [hexd upper (b / 16); hexd upper (b mod 16)].
Proof.
  intros B. cbn [hex_fix]. rewrite <- app_assoc. cbn [app].
  replace ((256 * v + b) / 16 / 16) with v by lia.
  replace (((256 * v + b) / 16) mod 16) with (b / 16) by lia.
  replace ((256 * v + b) mod 16) with (b mod 16) by lia. reflexivity.
Qed.
Definition hexu (upper : bool) (b : Z) : bytes := [hexd upper (b / 16); hexd upper (b mod 16)].
Lemma hexd_digit upper d : 0 <= d < 16 -> hex_digit (hexd upper d) d.
Proof. intros H. unfold hexd, hex_digit. destruct (Z.ltb_spec d 10), upper; lia. Qed.
Lemma hexu_text upper data : bytes_ok data -> hex_text (flat_map (hexu upper) data) data.
Proof.
  induction 1 as [|b r B _ IH]; [constructor|]. cbn [flat_map hexu app]. unfold byte_ok in B.
  replace b with (16 * (b / 16) + b mod 16) at 3 by lia.
  constructor; [apply hexd_digit; lia..|exact IH].
Qed.

(* ---- big endian ---- *)
Lemma lor_shift a b : 0 <= a -> 0 <= b < 256 -> Z.lor (Z.shiftl a 8) b = 256 * a + b.
Proof.
  intros A B. rewrite <- Z.lxor_lor, <- Z.add_nocarry_lxor; rewrite ?Z.shiftl_mul_pow2 by lia; try (change (2^8) with 256; lia).
  all: apply Z.bits_inj'; intros n Hn; rewrite Z.land_spec, Z.bits_0.
  all: destruct (Z.lt_ge_cases n 8) as [L|L]; [rewrite Z.mul_pow2_bits_low by lia; reflexivity|].
  all: assert (T : Z.testbit b n = false); [|rewrite T; apply andb_false_r].
  all: destruct (Z.eq_dec b 0) as [->|NZ]; [apply Z.bits_0|].
  all: apply Z.bits_above_log2; [lia|]; assert (Z.log2 b < 8) by (apply Z.log2_lt_pow2; [lia|change (2^8) with 256; lia]); lia.
Qed.
Ltac break_bytes H :=
  unfold bytes_ok in H;
  repeat match type of H with
  | Forall _ (_ :: _) => let B := fresh "B" in apply Forall_cons_iff in H; destruct H as [B H]; unfold byte_ok in B
  end; clear H.
Definition be2 (a b : Z) := 256 * a + b.
Definition be4 (a b c d : Z) := 256 * (256 * (256 * a + b) + c) + d.
Lemma unpack_fields b0 b1 b2 b3 b4 b5 b6 b7 b8 b9 n0 n1 n2 n3 n4 n5 :
  bytes_ok [b0; b1; b2; b3; b4; b5; b6; b7; b8; b9; n0; n1; n2; n3; n4; n5] ->
  uuid_unpack [b0; b1; b2; b3; b4; b5; b6; b7; b8; b9; n0; n1; n2; n3; n4; n5] =
  mkUuid (be4 b0 b1 b2 b3) (be2 b4 b5) (be2 b6 b7) (be2 b8 b9) [n0; n1; n2; n3; n4; n5].
Proof.
  intros H. unfold uuid_unpack. cbv zeta. cbn [nth].
  break_bytes H.
  change (slice 10 6 [b0; b1; b2; b3; b4; b5; b6; b7; b8; b9; n0; n1; n2; n3; n4; n5]) with [n0; n1; n2; n3; n4; n5].
  rewrite (lor_shift b0 b1), (lor_shift (256 * b0 + b1) b2), (lor_shift b4 b5), (lor_shift b6 b7), (lor_shift b8 b9) by lia.
  unfold u32, u16. rewrite (Z.mod_small (256 * (256 * b0 + b1) + b2)) by lia.
  rewrite lor_shift by lia. rewrite !Z.mod_small by lia. reflexivity.
Qed.

Ltac list16 a H :=
  do 16 (destruct a as [|? a]; [exfalso; cbn in H; lia|]); destruct a; [clear H|exfalso; rewrite !zlen_cons in H; pose proof (zlen_nonneg a); lia].
(* uuid_unparse_x is the hyphenated hex of the 16 bytes *)
Lemma unparse_hex upper b0 b1 b2 b3 b4 b5 b6 b7 b8 b9 n0 n1 n2 n3 n4 n5 :
  bytes_ok [b0; b1; b2; b3; b4; b5; b6; b7; b8; b9; n0; n1; n2; n3; n4; n5] ->
  uuid_unparse_x upper [b0; b1; b2; b3; b4; b5; b6; b7; b8; b9; n0; n1; n2; n3; n4; n5] =
  flat_map (hexu upper) [b0; b1; b2; b3] ++ [45] ++ flat_map (hexu upper) [b4; b5] ++ [45] ++
  flat_map (hexu upper) [b6; b7] ++ [45] ++ flat_map (hexu upper) [b8; b9] ++ [45] ++
  flat_map (hexu upper) [n0; n1; n2; n3; n4; n5].
Proof.
  intros H. unfold uuid_unparse_x. cbv zeta. rewrite unpack_fields by exact H. cbn [time_low time_mid time_hi clock_seq node].
  change (ztake 6 [n0; n1; n2; n3; n4; n5]) with [n0; n1; n2; n3; n4; n5].
  break_bytes H.
  assert (P2 : forall b, 0 <= b < 256 -> hex_pad upper 2 b = hexu upper b).
  { intros b Hb. change 2 with (Z.of_nat 2). rewrite hex_pad_fix by (try (change (16 ^ Z.of_nat 2) with 256); lia).
    replace b with (256 * 0 + b) at 1 by lia. rewrite hex_fix_byte by lia. reflexivity. }
  assert (P4 : forall a b, 0 <= a < 256 -> 0 <= b < 256 -> hex_pad upper 4 (be2 a b) = hexu upper a ++ hexu upper b).
  { intros a b Ha Hb. change 4 with (Z.of_nat 4). unfold be2. rewrite hex_pad_fix by (try (change (16 ^ Z.of_nat 4) with 65536); lia).
    rewrite hex_fix_byte by lia. replace a with (256 * 0 + a) at 1 by lia. rewrite hex_fix_byte by lia. reflexivity. }
  assert (P8 : hex_pad upper 8 (be4 b0 b1 b2 b3) = hexu upper b0 ++ hexu upper b1 ++ hexu upper b2 ++ hexu upper b3).
  { change 8 with (Z.of_nat 8). unfold be4. rewrite hex_pad_fix by (try (change (16 ^ Z.of_nat 8) with 4294967296); lia).
    rewrite !hex_fix_byte by lia. replace b0 with (256 * 0 + b0) at 1 by lia. rewrite hex_fix_byte by lia. reflexivity. }
  rewrite P8, !P4 by lia.
  replace (Z.shiftr (be2 b8 b9) 8) with b8 by (unfold be2; rewrite Z.shiftr_div_pow2 by lia; change (2^8) with 256; lia).
  replace (Z.land (be2 b8 b9) 255) with b9 by (unfold be2; change 255 with (Z.ones 8); rewrite Z.land_ones by lia; change (2^8) with 256; lia).
  cbn [flat_map]. rewrite !P2 by lia. reflexivity.
Qed.
Lemma zlen16 (u : bytes) : zlen u = 16 -> exists b0 b1 b2 b3 b4 b5 b6 b7 b8 b9 n0 n1 n2 n3 n4 n5,
  u = [b0; b1; b2; b3; b4; b5; b6; b7; b8; b9; n0; n1; n2; n3; n4; n5].
Proof.
  intros H. assert (L : length u = 16%nat) by (unfold zlen in H; lia). clear H.
  do 16 (destruct u as [|? u]; [discriminate|]). destruct u; [|discriminate]. do 16 eexists. reflexivity.
Qed.
Lemma unparse_text upper u : zlen u = 16 -> bytes_ok u -> uuid_text (uuid_unparse_x upper u) u.
Proof.
  intros L H. destruct (zlen16 u L) as (b0 & b1 & b2 & b3 & b4 & b5 & b6 & b7 & b8 & b9 & n0 & n1 & n2 & n3 & n4 & n5 & ->).
  rewrite unparse_hex by exact H.
  assert (S : bytes_ok [b0; b1; b2; b3] /\ bytes_ok [b4; b5] /\ bytes_ok [b6; b7] /\ bytes_ok [b8; b9] /\ bytes_ok [n0; n1; n2; n3; n4; n5]).
  { change [b0; b1; b2; b3; b4; b5; b6; b7; b8; b9; n0; n1; n2; n3; n4; n5] with
      ([b0; b1; b2; b3] ++ [b4; b5] ++ [b6; b7] ++ [b8; b9] ++ [n0; n1; n2; n3; n4; n5]) in H.
    rewrite !bytes_ok_app in H. exact H. }
  destruct S as (S1 & S2 & S3 & S4 & S5).
  do 10 eexists. split; [reflexivity|]. split; [|split; [apply hexu_text; exact S1|split; [apply hexu_text; exact S2|
    split; [apply hexu_text; exact S3|split; [apply hexu_text; exact S4|split; [apply hexu_text; exact S5|]]]]]].
  - reflexivity.
  - repeat split.
Qed.
Lemma hexu_case upper data c : bytes_ok data -> In c (flat_map (hexu upper) data) ->
  48 <= c <= 57 \/ (if upper then 65 <= c <= 70 else 97 <= c <= 102).
Proof.
  intros B. rewrite in_flat_map. intros (b & I & [<-|[<-|[]]]);
    (assert (0 <= b < 256) by (exact (proj1 (Forall_forall _ _) B b I)));
    unfold hexd; destruct upper; match goal with |- context [?x <? 10] => destruct (Z.ltb_spec x 10) end; lia.
Qed.
Lemma unparse_case upper u c : zlen u = 16 -> bytes_ok u -> In c (uuid_unparse_x upper u) ->
  c = 45 \/ 48 <= c <= 57 \/ (if upper then 65 <= c <= 70 else 97 <= c <= 102).
Proof.
  intros L H. destruct (zlen16 u L) as (b0 & b1 & b2 & b3 & b4 & b5 & b6 & b7 & b8 & b9 & n0 & n1 & n2 & n3 & n4 & n5 & ->).
  rewrite unparse_hex by exact H.
  assert (S : bytes_ok [b0; b1; b2; b3] /\ bytes_ok [b4; b5] /\ bytes_ok [b6; b7] /\ bytes_ok [b8; b9] /\ bytes_ok [n0; n1; n2; n3; n4; n5]).
  { change [b0; b1; b2; b3; b4; b5; b6; b7; b8; b9; n0; n1; n2; n3; n4; n5] with
      ([b0; b1; b2; b3] ++ [b4; b5] ++ [b6; b7] ++ [b8; b9] ++ [n0; n1; n2; n3; n4; n5]) in H.
    rewrite !bytes_ok_app in H. exact H. }
  destruct S as (S1 & S2 & S3 & S4 & S5).
  rewrite !in_app_iff.
  intros [I|[[<-|[]]|[I|[[<-|[]]|[I|[[<-|[]]|[I|[[<-|[]]|I]]]]]]]]; auto; right; (eapply hexu_case; [|exact I]; assumption).
Qed.

(* ---- parsing ---- *)
Lemma isxdigit_iff c : isxdigit c = true <-> exists v, hex_digit c v.
Proof.
  unfold isxdigit, hex_digit. rewrite !orb_true_iff, !andb_true_iff, !Z.leb_le. split.
  - intros [[[? ?]|[? ?]]|[? ?]]; eexists; [left|right; left|right; right]; split; try reflexivity; lia.
  - intros (v & [|[|]]); lia.
Qed.
Lemma digit_x c v : hex_digit c v -> isxdigit c = true /\ xvalue c = v /\ 0 <= v < 16 /\ c <> 45 /\ c <> 0.
Proof.
  intros H. split; [apply isxdigit_iff; eauto|]. unfold xvalue.
  destruct H as [[]|[[]|[]]]; (destruct (Z.leb_spec c 57); [|destruct (Z.leb_spec c 70)]); lia.
Qed.
Definition hv (c d : Z) : Z := 16 * xvalue c + xvalue d.
Lemma x_digit c : isxdigit c = true -> hex_digit c (xvalue c) /\ 0 <= xvalue c < 16.
Proof. intros H. apply isxdigit_iff in H. destruct H as (v & H). destruct (digit_x c v H) as (_ & -> & ? & _). auto. Qed.
Lemma pack_fields b0 b1 b2 b3 b4 b5 b6 b7 b8 b9 n0 n1 n2 n3 n4 n5 :
  bytes_ok [b0; b1; b2; b3; b4; b5; b6; b7; b8; b9; n0; n1; n2; n3; n4; n5] ->
  uuid_pack (mkUuid (be4 b0 b1 b2 b3) (be2 b4 b5) (be2 b6 b7) (be2 b8 b9) [n0; n1; n2; n3; n4; n5]) =
  [b0; b1; b2; b3; b4; b5; b6; b7; b8; b9; n0; n1; n2; n3; n4; n5].
Proof.
  intros H. break_bytes H. unfold uuid_pack. cbn [time_low time_mid time_hi clock_seq node].
  change (ztake 6 [n0; n1; n2; n3; n4; n5]) with [n0; n1; n2; n3; n4; n5]. cbn [app].
  unfold be4, be2, u8. rewrite !Z.shiftr_div_pow2 by lia. change (2^24) with 16777216. change (2^16) with 65536. change (2^8) with 256.
  repeat (f_equal; try lia).
Qed.
Lemma pack_unpack u : zlen u = 16 -> bytes_ok u -> uuid_pack (uuid_unpack u) = u.
Proof.
  intros L H. destruct (zlen16 u L) as (b0 & b1 & b2 & b3 & b4 & b5 & b6 & b7 & b8 & b9 & n0 & n1 & n2 & n3 & n4 & n5 & ->).
  rewrite unpack_fields by exact H. apply pack_fields. exact H.
Qed.
Definition wf_uuid (u : uuid) : Prop :=
  0 <= time_low u < 2^32 /\ 0 <= time_mid u < 2^16 /\ 0 <= time_hi u < 2^16 /\ 0 <= clock_seq u < 2^16 /\
  zlen (node u) = 6 /\ bytes_ok (node u).
Lemma unpack_pack u : wf_uuid u -> uuid_unpack (uuid_pack u) = u.
Proof.
  destruct u as [tl tm th cs nd]. unfold wf_uuid. cbn [time_low time_mid time_hi clock_seq node].
  intros (A & B & C & D & E & F).
  assert (L : length nd = 6%nat) by (unfold zlen in E; lia).
  do 6 (destruct nd as [|? nd]; [discriminate|]). destruct nd; [|discriminate].
  change (2^32) with 4294967296 in A. change (2^16) with 65536 in *.
  replace tl with (be4 (tl / 16777216) (tl / 65536 mod 256) (tl / 256 mod 256) (tl mod 256)) by (unfold be4; lia).
  replace tm with (be2 (tm / 256) (tm mod 256)) by (unfold be2; lia).
  replace th with (be2 (th / 256) (th mod 256)) by (unfold be2; lia).
  replace cs with (be2 (cs / 256) (cs mod 256)) by (unfold be2; lia).
  assert (W : bytes_ok ([tl / 16777216; tl / 65536 mod 256; tl / 256 mod 256; tl mod 256; tm / 256; tm mod 256; th / 256; th mod 256; cs / 256; cs mod 256] ++ [z; z0; z1; z2; z3; z4])).
  { apply bytes_ok_app. split; [|exact F]. repeat (apply Forall_cons; [unfold byte_ok; lia|]). constructor. }
  rewrite pack_fields by exact W. apply unpack_fields. exact W.
Qed.
