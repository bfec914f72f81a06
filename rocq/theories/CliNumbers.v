(* CliNumbers.v -- numbers and names on the command line *)
From Coq Require Import String.
From Verif Require Import BaseLemmas HeaderModel HeaderSpec CrcModel CrcProofs HashModel PkgAdd UtilModel UtilSpec UtilProofs CliModel CliSpec CliArgs.
Local Open Scope Z_scope.

(* [s] is a decimal numeral of value [v] *)
Inductive dec_num : bytes -> Z -> Prop :=
| dec_num_nil : dec_num [] 0
| dec_num_snoc s v c : dec_num s v -> 48 <= c <= 57 -> dec_num (s ++ [c]) (10 * v + (c - 48)).

Lemma hex_digit_x c v : hex_digit c v -> isxdigit c = true /\ xvalue c = v.
Proof.
  unfold hex_digit, isxdigit, xvalue. intros [[H ->]|[[H ->]|[H ->]]];
    destruct (Z.leb_spec 48 c), (Z.leb_spec c 57), (Z.leb_spec 65 c), (Z.leb_spec c 70), (Z.leb_spec 97 c), (Z.leb_spec c 102); cbn [andb orb]; split; try reflexivity; lia.
Qed.
Lemma hex_num_digits s v : hex_num s v -> Forall (fun c => isxdigit c = true) s /\ hex_number s = v /\ 0 <= v.
Proof.
  induction 1 as [|s v c d _ (IH1 & IH2 & IH3) Hd]; [split; [constructor|split; [reflexivity|lia]]|].
  assert (0 <= d) by (destruct Hd as [[? ->]|[[? ->]|[? ->]]]; lia).
  destruct (hex_digit_x c d Hd) as [A B]. split; [apply Forall_app; split; auto|]. split; [|lia].
  unfold hex_number in *. rewrite fold_left_app, IH2. cbn [fold_left]. lia.
Qed.
Lemma leading_hex_all s : Forall (fun c => isxdigit c = true) s -> leading_hex s = s.
Proof. induction 1 as [|c s H _ IH]; [reflexivity|]. cbn [leading_hex]. now rewrite H, IH. Qed.
(* "0x" and hexadecimal digits *)
Lemma hex_arg s v : hex_num s v -> v < 2^64 -> id_arg (bytes_of "0x" ++ s) = v mod 2^32.
Proof.
  intros H B. destruct (hex_num_digits s v H) as (A & E & P). rewrite id_arg_spec. unfold arg_id. rewrite bytes_0x. cbn [app].
  rewrite (leading_hex_all s A), E. change (48 =? 48) with true. change (120 =? 120) with true. cbn [andb].
  destruct (Z.ltb_spec v (2^64)); [reflexivity|lia].
Qed.
Lemma name_arg s : ztake 2 s <> bytes_of "0x" -> id_arg s = bpak_id s.
Proof.
  intros N. unfold id_arg. destruct (bytes_eqb (ztake 2 s) (bytes_of "0x")) eqn:E; [|reflexivity]. apply bytes_eqb_eq in E. contradiction.
Qed.

(* ---- strtol ---- *)
Lemma digits_run base a r : Forall (fun c => digit_value c < base) a -> forall n acc, digits base n acc (a ++ r) =
  digits base (n + zlen a) (fold_left (fun x c => x * base + digit_value c) a acc) r.
Proof.
  induction 1 as [|c a H _ IH]; intros n acc; cbn [app fold_left]; [change (zlen (@nil Z)) with 0; f_equal; lia|].
  cbn [digits]. destruct (Z.ltb_spec (digit_value c) base); [|lia]. rewrite IH, zlen_cons. f_equal; lia.
Qed.
Lemma dec_num_digits s v : dec_num s v -> Forall (fun c => 48 <= c <= 57) s /\ fold_left (fun x c => x * 10 + digit_value c) s 0 = v /\ 0 <= v.
Proof.
  induction 1 as [|s v c _ (IH1 & IH2 & IH3) Hc]; [split; [constructor|split; [reflexivity|lia]]|].
  split; [apply Forall_app; split; auto|]. split; [|lia]. rewrite fold_left_app, IH2. cbn [fold_left].
  unfold digit_value. destruct (Z.leb_spec 48 c), (Z.leb_spec c 57); cbn [andb]; lia.
Qed.
Lemma dec_digit c : 48 <= c <= 57 -> digit_value c < 10 /\ isspace c = false /\ (c =? 45) = false /\ (c =? 43) = false.
Proof.
  intros H. unfold digit_value, isspace. destruct (Z.leb_spec 48 c), (Z.leb_spec c 57); cbn [andb]; try lia.
Qed.
(* what may follow the digits *)
Definition no_digit (r : bytes) : Prop := match r with c :: _ => ~ (48 <= c <= 57) | [] => True end.
Lemma digits_stop base n acc r : base <= 10 -> match r with c :: _ => ~ (48 <= c <= 57) | [] => True end -> digits base n acc r = (n, acc).
Proof.
  destruct r as [|c r]; [reflexivity|]. intros B N. cbn [digits]. destruct (Z.ltb_spec (digit_value c) base) as [L|_]; [|reflexivity]. exfalso.
  unfold digit_value in L. destruct (Z.leb_spec 48 c), (Z.leb_spec c 57), (Z.leb_spec 65 c), (Z.leb_spec c 90), (Z.leb_spec 97 c), (Z.leb_spec c 122); cbn [andb] in L; lia.
Qed.
Lemma unsigned_decimal c t r v : dec_num (c :: t) v -> c <> 48 -> no_digit r ->
  hex_prefix ((c :: t) ++ r) = false /\ (c =? 48) = false /\ digits 10 0 0 ((c :: t) ++ r) = (zlen (c :: t), v).
Proof.
  intros D N Z0. destruct (dec_num_digits _ _ D) as (A & E & P).
  split; [|split].
  - unfold hex_prefix. cbn [app]. destruct (t ++ r) as [|x [|y l]]; auto. destruct (Z.eqb_spec c 48); [contradiction|reflexivity].
  - now apply Z.eqb_neq.
  - rewrite digits_run.
    2:{ apply Forall_impl with (P := fun c => 48 <= c <= 57); [|exact A]. intros x Hx. apply (dec_digit x Hx). }
    rewrite digits_stop; [|lia|exact Z0]. rewrite E. f_equal.
Qed.
Lemma strtol_decimal s r v : dec_num s v -> hd 48 s <> 48 -> no_digit r ->
  strtol0 (s ++ r) = if v <? 2^63 then Some v else None.
Proof.
  intros D N Z0. destruct s as [|c t]; [now elim N|]. cbn [hd] in N. destruct (dec_num_digits _ _ D) as (A & _ & P).
  inversion A as [|? ? Hc _]; subst. destruct (dec_digit c Hc) as (_ & Sp & M1 & M2).
  unfold strtol0, strto. assert (Sk : skip_space ((c :: t) ++ r) = (c :: t) ++ r) by (cbn [app skip_space]; now rewrite Sp).
  rewrite Sk. destruct (unsigned_decimal c t r v D N Z0) as (U1 & U2 & U3). cbn [app] in *. rewrite M1, M2. cbn iota.
  rewrite U1. cbn [andb]. change (0 =? 0) with true. cbn iota. rewrite U2. rewrite U3.
  pose proof (zlen_nonneg t). rewrite zlen_cons. destruct (Z.eqb_spec (1 + zlen t) 0); [lia|].
  destruct (Z.ltb_spec v (- 2^63)), (Z.ltb_spec (2^63 - 1) v), (Z.ltb_spec v (2^63)); cbn [orb]; try reflexivity; lia.
Qed.
Lemma strtol_negative s r v : dec_num s v -> hd 48 s <> 48 -> no_digit r ->
  strtol0 (45 :: s ++ r) = if v <=? 2^63 then Some (- v) else None.
Proof.
  intros D N Z0. destruct s as [|c t]; [now elim N|]. cbn [hd] in N. destruct (dec_num_digits _ _ D) as (A & _ & P).
  unfold strtol0, strto. change (skip_space (45 :: (c :: t) ++ r)) with (45 :: (c :: t) ++ r). change (45 =? 45) with true. cbn iota.
  destruct (unsigned_decimal c t r v D N Z0) as (U1 & U2 & U3). cbn [app] in *.
  change (45 =? 45) with true. cbn iota. rewrite U1. cbn [andb]. change (0 =? 0) with true. cbn iota. rewrite U2. rewrite U3.
  pose proof (zlen_nonneg t). rewrite zlen_cons. destruct (Z.eqb_spec (1 + zlen t) 0); [lia|].
  destruct (Z.ltb_spec (- v) (- 2^63)), (Z.ltb_spec (2^63 - 1) (- v)), (Z.leb_spec v (2^63)); cbn [orb]; try reflexivity; lia.
Qed.
Lemma strtol_hex s v : hex_num s v -> s <> [] -> strtol0 (bytes_of "0x" ++ s) = if v <? 2^63 then Some v else None.
Proof.
  intros H N. destruct (hex_num_digits s v H) as (A & E & P). rewrite bytes_0x. cbn [app]. destruct s as [|c t]; [contradiction|].
  unfold strtol0, strto. change (skip_space (48 :: 120 :: c :: t)) with (48 :: 120 :: c :: t). cbn iota. change (48 =? 45) with false. change (48 =? 43) with false. cbn iota.
  inversion A as [|? ? Hc _]; subst. change (hex_prefix (48 :: 120 :: c :: t)) with (digit_value c <? 16). rewrite digit_hex, Hc.
  change (true && ((0 =? 0) || (0 =? 16))) with true. cbn iota. change (zdrop 2 (48 :: 120 :: c :: t)) with (c :: t).
  rewrite digits_hex, (leading_hex_all _ A). change (fold_left (fun a c0 => 16 * a + xvalue c0) (c :: t) 0) with (hex_number (c :: t)).
  pose proof (zlen_nonneg t). rewrite zlen_cons. destruct (Z.eqb_spec (0 + (1 + zlen t)) 0); [lia|].
  destruct (Z.ltb_spec (hex_number (c :: t)) (- 2^63)), (Z.ltb_spec (2^63 - 1) (hex_number (c :: t))), (Z.ltb_spec (hex_number (c :: t)) (2^63)); cbn [orb]; try reflexivity; lia.
Qed.
