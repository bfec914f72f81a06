(* HsBits.v -- bits, tokens, parsing *)
From Verif Require Import Base BaseLemmas HsSpec.
From Coq Require Import Lia.

Lemma to_bits_length n v : length (to_bits n v) = n.
Proof. induction n; cbn; congruence. Qed.
Lemma bits_of_app a b : bits_of (a ++ b) = bits_of a ++ bits_of b.
Proof. apply flat_map_app. Qed.
Lemma bits_of_length l : length (bits_of l) = (8 * length l)%nat.
Proof.
  unfold bits_of. induction l as [|a l IH]; [reflexivity|]. cbn [flat_map].
  rewrite app_length, to_bits_length, IH. cbn [length]. lia.
Qed.
Lemma val_snoc l b : val (l ++ [b]) = 2 * val l + Z.b2z b.
Proof. unfold val. rewrite fold_left_app. reflexivity. Qed.
Lemma fold_val l a : fold_left (fun a b => 2 * a + Z.b2z b) l a = a * 2 ^ Z.of_nat (length l) + val l.
Proof.
  revert a. induction l as [|b l IH]; intros a; [cbn; unfold val; cbn; lia|].
  cbn [fold_left length]. rewrite IH. unfold val at 2. cbn [fold_left]. rewrite (IH (2 * 0 + Z.b2z b)).
  rewrite Nat2Z.inj_succ, Z.pow_succ_r by lia. ring.
Qed.
Lemma val_cons b l : val (b :: l) = Z.b2z b * 2 ^ Z.of_nat (length l) + val l.
Proof. unfold val at 1. cbn [fold_left]. rewrite fold_val. f_equal. Qed.
Lemma val_app a b : val (a ++ b) = val a * 2 ^ Z.of_nat (length b) + val b.
Proof. unfold val at 1. rewrite fold_left_app, fold_val. reflexivity. Qed.
Lemma val_bound l : 0 <= val l < 2 ^ Z.of_nat (length l).
Proof.
  induction l as [|b l IH]; [cbn; lia|]. rewrite val_cons. cbn [length]. rewrite Nat2Z.inj_succ, Z.pow_succ_r by lia.
  destruct b; cbn [Z.b2z]; lia.
Qed.
Lemma mod_succ v k : 0 <= k -> v mod 2 ^ (k + 1) = Z.b2z (Z.testbit v k) * 2 ^ k + v mod 2 ^ k.
Proof.
  intros Hk. rewrite Z.testbit_spec' by lia.
  replace (k + 1) with (Z.succ k) by lia. rewrite Z.pow_succ_r by lia.
  rewrite (Z.mul_comm 2). rewrite Z.rem_mul_r by (try apply Z.pow_nonzero; lia). ring.
Qed.
Lemma val_to_bits n v : val (to_bits n v) = v mod 2 ^ Z.of_nat n.
Proof.
  induction n as [|n IH]; [cbn; rewrite Z.mod_1_r; reflexivity|].
  cbn [to_bits]. rewrite val_cons, to_bits_length, IH. rewrite Nat2Z.inj_succ. unfold Z.succ. rewrite mod_succ by lia. reflexivity.
Qed.
Lemma testbit_val b l : Z.testbit (val (b :: l)) (Z.of_nat (length l)) = b.
Proof.
  rewrite val_cons. pose proof (val_bound l).
  apply Z.b2z_inj. rewrite Z.testbit_spec' by lia.
  rewrite Z.div_add_l by (apply Z.pow_nonzero; lia). rewrite Z.div_small by lia. destruct b; reflexivity.
Qed.
Lemma to_bits_mod n v w : v mod 2 ^ Z.of_nat n = w mod 2 ^ Z.of_nat n -> to_bits n v = to_bits n w.
Proof.
  induction n as [|n IH]; [reflexivity|]. intros E. cbn [to_bits]. rewrite Nat2Z.inj_succ in E. unfold Z.succ in E.
  assert (P : 0 < 2 ^ Z.of_nat n) by (apply Z.pow_pos_nonneg; lia).
  assert (E2 : v mod 2 ^ Z.of_nat n = w mod 2 ^ Z.of_nat n).
  { pose proof (f_equal (fun x => x mod 2 ^ Z.of_nat n) E) as F. cbv beta in F.
    rewrite !mod_succ in F by lia. rewrite !(Z.add_comm (_ * _)), !Z.mod_add, !Z.mod_mod in F by lia. exact F. }
  rewrite (IH E2). f_equal. rewrite !mod_succ in E by lia. apply Z.b2z_inj. nia.
Qed.
Lemma to_bits_val l : to_bits (length l) (val l) = l.
Proof.
  induction l as [|b l IH]; [reflexivity|]. cbn [length to_bits]. rewrite testbit_val. f_equal.
  transitivity (to_bits (length l) (val l)); [|exact IH]. apply to_bits_mod. rewrite val_cons, Z.add_comm, Z.mod_add; [reflexivity|].
  apply Z.pow_nonzero; lia.
Qed.
Lemma land_pow2 c k : 0 <= k -> (Z.land c (2 ^ k) =? 0) = negb (Z.testbit c k).
Proof.
  intros Hk. destruct (Z.testbit c k) eqn:T; cbn [negb].
  - apply Z.eqb_neq. intros E. apply (f_equal (fun x => Z.testbit x k)) in E.
    rewrite Z.land_spec, T, Z.pow2_bits_true, Z.bits_0 in E by lia. discriminate.
  - apply Z.eqb_eq. apply Z.bits_inj'. intros i Hi. rewrite Z.land_spec, Z.bits_0.
    destruct (Z.eqb_spec i k) as [->|N]; [rewrite T; reflexivity|]. rewrite Z.pow2_bits_false by lia. apply andb_false_r.
Qed.
Lemma shiftr_pow2 k : Z.shiftr (2 ^ Z.of_nat (S k)) 1 = 2 ^ Z.of_nat k.
Proof.
  rewrite Z.shiftr_div_pow2 by lia. rewrite Nat2Z.inj_succ, Z.pow_succ_r by lia. change (2 ^ 1) with 2.
  rewrite Z.mul_comm, Z.div_mul by lia. reflexivity.
Qed.

(* ---- tokens ---- *)
Lemma token_bits_length t : length (token_bits t) = match t with Lit _ => 9%nat | Ref _ _ => 16%nat end.
Proof. destruct t; cbn [token_bits length]; rewrite ?app_length, !to_bits_length; reflexivity. Qed.
Lemma parse_fuel l : forall n m, (length l <= n)%nat -> (length l <= m)%nat -> parse n l = parse m l.
Proof.
  intros n. revert l. induction n as [|n IH]; intros l m Hn Hm.
  - destruct l; [destruct m; reflexivity|cbn in Hn; lia].
  - destruct l as [|b l]; [destruct m; reflexivity|]. destruct m as [|m]; [cbn in Hm; lia|].
    cbn [parse length] in *. destruct b.
    + destruct (8 <=? zlen l); [|reflexivity]. f_equal. apply IH; unfold zdrop; rewrite skipn_length; lia.
    + destruct (15 <=? zlen l); [|reflexivity]. f_equal. apply IH; unfold zdrop; rewrite skipn_length; lia.
Qed.
Definition tokens (l : list bool) : list token := parse (length l) l.
Lemma ztake_pre {A} n (a b : list A) : length a = Z.to_nat n -> ztake n (a ++ b) = a.
Proof. intros E. unfold ztake. rewrite <- E. rewrite firstn_app, Nat.sub_diag, firstn_O, app_nil_r, firstn_all. reflexivity. Qed.
Lemma zdrop_pre {A} n (a b : list A) : length a = Z.to_nat n -> zdrop n (a ++ b) = b.
Proof. intros E. unfold zdrop. rewrite <- E. rewrite skipn_app, Nat.sub_diag, skipn_O, skipn_all. reflexivity. Qed.
Lemma tokens_cons t l : token_ok t -> tokens (token_bits t ++ l) = t :: tokens l.
Proof.
  intros Ht. unfold tokens. rewrite (parse_fuel _ _ (S (length (token_bits t ++ l)))) by lia.
  destruct t as [c|d n].
  - change (token_bits (Lit c) ++ l) with (true :: (to_bits 8 c ++ l)). cbn [parse].
    assert (L : 8 <= zlen (to_bits 8 c ++ l)) by (unfold zlen; rewrite app_length, to_bits_length; lia).
    destruct (Z.leb_spec 8 (zlen (to_bits 8 c ++ l))); [|lia].
    rewrite ztake_pre, zdrop_pre by (rewrite to_bits_length; reflexivity).
    rewrite val_to_bits. cbn in Ht. rewrite Z.mod_small by (change (2 ^ Z.of_nat 8) with 256; lia).
    f_equal. apply parse_fuel; cbn [length]; rewrite ?app_length; lia.
  - destruct Ht as [Hd Hn].
    change (token_bits (Ref d n) ++ l) with (false :: ((to_bits 8 (d - 1) ++ to_bits 7 (n - 1)) ++ l)). cbn [parse].
    set (a := to_bits 8 (d - 1)). set (b := to_bits 7 (n - 1)).
    assert (La : length a = 8%nat) by apply to_bits_length. assert (Lb : length b = 7%nat) by apply to_bits_length.
    assert (L : 15 <= zlen ((a ++ b) ++ l)) by (unfold zlen; rewrite !app_length; lia).
    destruct (Z.leb_spec 15 (zlen ((a ++ b) ++ l))); [|lia].
    rewrite (zdrop_pre 15) by (rewrite app_length; lia).
    unfold slice. rewrite <- app_assoc. rewrite (ztake_pre 8), (zdrop_pre 8), (ztake_pre 7) by assumption.
    unfold a, b at 1. rewrite !val_to_bits, !Z.mod_small by (cbn; lia).
    f_equal; [f_equal; lia|]. apply parse_fuel; cbn [length]; rewrite ?app_length; lia.
Qed.
Lemma tokens_app ts l : Forall token_ok ts -> tokens (flat_map token_bits ts ++ l) = ts ++ tokens l.
Proof.
  induction 1 as [|t ts Ht _ IH]; [reflexivity|]. cbn [flat_map]. rewrite <- app_assoc, tokens_cons, IH by assumption. reflexivity.
Qed.
(* what is left when the rest holds no complete token *)
Definition incomplete (l : list bool) : Prop :=
  match l with [] => True | true :: r => (length r < 8)%nat | false :: r => (length r < 15)%nat end.
Lemma tokens_incomplete l : incomplete l -> tokens l = [].
Proof.
  unfold tokens, incomplete. destruct l as [|[] r]; intros H; [reflexivity| |]; cbn [length parse].
  - destruct (Z.leb_spec 8 (zlen r)); [unfold zlen in *; lia|reflexivity].
  - destruct (Z.leb_spec 15 (zlen r)); [unfold zlen in *; lia|reflexivity].
Qed.
Lemma tokens_ok l : Forall token_ok (tokens l).
Proof.
  unfold tokens. generalize (length l). intros n. revert l. induction n as [|n IH]; intros l; [constructor|].
  cbn [parse]. destruct l as [|[] r]; [constructor| |].
  - destruct (Z.leb_spec 8 (zlen r)); [|constructor]. constructor; [|apply IH].
    pose proof (val_bound (ztake 8 r)) as V. unfold ztake in V at 3. rewrite firstn_length in V. cbn [token_ok].
    unfold zlen in *. rewrite Nat.min_l in V by lia. change (2 ^ Z.of_nat (Z.to_nat 8)) with 256 in V. exact V.
  - destruct (Z.leb_spec 15 (zlen r)); [|constructor]. constructor; [|apply IH].
    pose proof (val_bound (ztake 8 r)) as V. unfold ztake in V at 3. rewrite firstn_length in V.
    pose proof (val_bound (slice 8 7 r)) as W. assert (Lw : length (slice 8 7 r) = 7%nat) by (unfold slice, ztake, zdrop; rewrite firstn_length, skipn_length; unfold zlen in *; lia). rewrite Lw in W.
    unfold zlen in *. rewrite Nat.min_l in V by lia.
    change (2 ^ Z.of_nat (Z.to_nat 8)) with 256 in V. change (2 ^ Z.of_nat 7) with 128 in W. cbn [token_ok]. lia.
Qed.
Lemma hs_decode_tokens l : hs_decode l = expand (tokens (bits_of l)).
Proof. reflexivity. Qed.

(* ---- expansion ---- *)
Lemma repeat_back_app n d h : exists x, repeat_back n d h = h ++ x.
Proof.
  revert h. induction n as [|n IH]; intros h; [exists []; rewrite app_nil_r; reflexivity|].
  cbn [repeat_back]. destruct (IH (h ++ [znth 0 (zlen h - d) h])) as [x E]. rewrite E, <- app_assoc. eexists; reflexivity.
Qed.
Lemma repeat_back_add n m d h : repeat_back (n + m) d h = repeat_back m d (repeat_back n d h).
Proof. revert h. induction n as [|n IH]; intros h; [reflexivity|]. cbn [Nat.add repeat_back]. apply IH. Qed.
Lemma expand1_app h t : exists x, expand1 h t = h ++ x.
Proof. destruct t; [eexists; reflexivity|]. apply repeat_back_app. Qed.
Lemma fold_expand_app ts h : exists x, fold_left expand1 ts h = h ++ x.
Proof.
  revert h. induction ts as [|t ts IH]; intros h; [exists []; rewrite app_nil_r; reflexivity|].
  cbn [fold_left]. destruct (IH (expand1 h t)) as [x E]. destruct (expand1_app h t) as [y F]. rewrite E, F, <- app_assoc.
  eexists; reflexivity.
Qed.
Definition hist (ts : list token) : bytes := fold_left expand1 ts (zeros 256).
Lemma hist_expand ts : hist ts = zeros 256 ++ expand ts.
Proof.
  unfold hist, expand. destruct (fold_expand_app ts (zeros 256)) as [x E]. rewrite E. f_equal.
Qed.
Lemma hist_snoc ts t : hist (ts ++ [t]) = expand1 (hist ts) t.
Proof. unfold hist. rewrite fold_left_app. reflexivity. Qed.
