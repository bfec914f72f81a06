(* CliArgs.v -- arguments of the command line tool *)
From Coq Require Import String.
From Verif Require Import BaseLemmas HeaderModel HeaderSpec CrcModel CrcProofs HashModel PkgAdd UtilModel UtilSpec UtilProofs CliModel CliSpec.
Local Open Scope Z_scope.

Lemma bytes_eqb_eq a b : bytes_eqb a b = true <-> a = b.
Proof.
  revert b; induction a as [|x a IH]; intros [|y b]; cbn [bytes_eqb]; split; try congruence; intros H.
  - apply andb_prop in H as [H1 H2]. apply Z.eqb_eq in H1. apply IH in H2. congruence.
  - injection H as -> ->. rewrite Z.eqb_refl. now apply IH.
Qed.
Lemma digit_hex c : (digit_value c <? 16) = isxdigit c.
Proof.
  unfold digit_value, isxdigit.
  destruct (Z.leb_spec 48 c), (Z.leb_spec c 57), (Z.leb_spec 65 c), (Z.leb_spec c 90), (Z.leb_spec c 70), (Z.leb_spec 97 c), (Z.leb_spec c 122), (Z.leb_spec c 102);
    cbn [andb orb]; lia.
Qed.
Lemma digit_xvalue c : isxdigit c = true -> digit_value c = xvalue c.
Proof.
  unfold digit_value, isxdigit, xvalue.
  destruct (Z.leb_spec 48 c), (Z.leb_spec c 57), (Z.leb_spec 65 c), (Z.leb_spec c 90), (Z.leb_spec c 70), (Z.leb_spec 97 c), (Z.leb_spec c 122), (Z.leb_spec c 102);
    cbn [andb orb]; intros; try discriminate; lia.
Qed.
Lemma digits_hex s : forall n acc, digits 16 n acc s = (n + zlen (leading_hex s), fold_left (fun a c => 16 * a + xvalue c) (leading_hex s) acc).
Proof.
  induction s as [|c s IH]; intros n acc; cbn [digits leading_hex]; [change (zlen (@nil Z)) with 0; f_equal; lia|].
  rewrite digit_hex. destruct (isxdigit c) eqn:E.
  - rewrite IH, zlen_cons. cbn [fold_left]. rewrite digit_xvalue by auto. f_equal; [lia|]. f_equal. lia.
  - change (zlen (@nil Z)) with 0. cbn [fold_left]. f_equal; lia.
Qed.
Lemma hex_number_nonneg s : 0 <= hex_number (leading_hex s).
Proof.
  unfold hex_number. assert (X : forall l a, 0 <= a -> Forall (fun c => 0 <= xvalue c) l -> 0 <= fold_left (fun a c => 16 * a + xvalue c) l a).
  { induction l as [|c l IH]; intros a Ha Hl; cbn [fold_left]; auto. inversion Hl; subst. apply IH; auto. lia. }
  apply X; [lia|]. induction s as [|c s IH]; cbn [leading_hex]; [constructor|]. destruct (isxdigit c) eqn:E; constructor; auto.
  unfold isxdigit in E. unfold xvalue. destruct (Z.leb_spec c 57), (Z.leb_spec c 70); lia.
Qed.
Lemma bytes_0x : bytes_of "0x" = [48; 120]. Proof. reflexivity. Qed.
Lemma id_arg_spec arg : id_arg arg = arg_id arg.
Proof.
  unfold id_arg, arg_id. rewrite bytes_0x. destruct arg as [|a [|b r]]; try reflexivity.
  { change (ztake 2 [a]) with [a]. cbn [bytes_eqb]. rewrite andb_false_r. reflexivity. }
  change (ztake 2 (a :: b :: r)) with [a; b]. cbn [bytes_eqb]. rewrite andb_true_r.
  destruct (Z.eqb_spec a 48) as [->|]; [|reflexivity]. destruct (Z.eqb_spec b 120) as [->|]; [|reflexivity]. cbn [andb].
  unfold strtoul_hex, strto. change (skip_space (48 :: 120 :: r)) with (48 :: 120 :: r). cbn iota beta.
  change (48 =? 45) with false. change (48 =? 43) with false. cbn iota beta.
  change (16 =? 0) with false. change (16 =? 16) with true. cbn [orb]. rewrite andb_true_r.
  destruct r as [|c r].
  - change (hex_prefix [48; 120]) with false. cbn iota. change (digits 16 0 0 [48; 120]) with (1, 0). cbn iota.
    change (1 =? 0) with false. cbn iota. reflexivity.
  - change (hex_prefix (48 :: 120 :: c :: r)) with (digit_value c <? 16). rewrite digit_hex. destruct (isxdigit c) eqn:E.
    + cbn iota. change (zdrop 2 (48 :: 120 :: c :: r)) with (c :: r). rewrite digits_hex, Z.add_0_l.
      change (fold_left (fun a0 c0 => 16 * a0 + xvalue c0) (leading_hex (c :: r)) 0) with (hex_number (leading_hex (c :: r))).
      pose proof (hex_number_nonneg (c :: r)) as Hn.
      assert (L : zlen (leading_hex (c :: r)) <> 0).
      { cbn [leading_hex]. rewrite E, zlen_cons. pose proof (zlen_nonneg (leading_hex r)). lia. }
      destruct (Z.eqb_spec (zlen (leading_hex (c :: r))) 0); [contradiction|].
      destruct (Z.ltb_spec (2^64 - 1) (hex_number (leading_hex (c :: r)))), (Z.ltb_spec (hex_number (leading_hex (c :: r))) (2^64)); try (exfalso; lia); [reflexivity|].
      unfold u64, u32. rewrite (Z.mod_small _ 18446744073709551616) by lia. reflexivity.
    + cbn iota. assert (Ed : digits 16 0 0 (48 :: 120 :: c :: r) = (1, 0)) by reflexivity. rewrite Ed. change (1 =? 0) with false. cbn iota.
      cbn [leading_hex]. rewrite E. reflexivity.
Qed.
Lemma arg_id_bound arg : bytes_ok arg -> 0 <= arg_id arg < 2^32.
Proof.
  intros B. pose proof (bpak_id_bound arg B) as Hb. unfold arg_id. destruct arg as [|a [|b r]]; try lia.
  destruct (_ && _); [|lia]. apply Z.mod_pos_bound. lia.
Qed.
