(* UtilParse.v -- uuid_parse, uuid_compare, uuid_is_null, uuid_to_string *)
From Coq Require Import Lia.
From Verif Require Import Base BaseLemmas HeaderModel UtilModel UtilSpec UtilProofs.

Lemma zlen36 (s : bytes) : zlen s = 36 -> exists c0 c1 c2 c3 c4 c5 c6 c7 c8 c9 c10 c11 c12 c13 c14 c15 c16 c17 c18 c19
   c20 c21 c22 c23 c24 c25 c26 c27 c28 c29 c30 c31 c32 c33 c34 c35,
  s = [c0; c1; c2; c3; c4; c5; c6; c7; c8; c9; c10; c11; c12; c13; c14; c15; c16; c17; c18; c19;
   c20; c21; c22; c23; c24; c25; c26; c27; c28; c29; c30; c31; c32; c33; c34; c35].
Proof.
  intros H. assert (L : length s = 36%nat) by (unfold zlen in H; lia). clear H.
  do 36 (destruct s as [|? s]; [discriminate|]). destruct s; [|discriminate]. do 36 eexists. reflexivity.
Qed.
Lemma check_dash (i c : Z) r : i = 8 \/ i = 13 \/ i = 18 \/ i = 23 ->
  parse_check i (c :: r) = true <-> c = 45 /\ parse_check (i + 1) r = true.
Proof.
  intros H. cbn [parse_check].
  replace ((i =? 8) || (i =? 13) || (i =? 18) || (i =? 23)) with true by (destruct H as [->|[->|[->| ->]]]; reflexivity).
  rewrite andb_true_iff. unfold dash. rewrite Z.eqb_eq. reflexivity.
Qed.
Lemma check_digit (i c : Z) r : i <> 8 -> i <> 13 -> i <> 18 -> i <> 23 -> i <> 36 ->
  parse_check i (c :: r) = true <-> isxdigit c = true /\ parse_check (i + 1) r = true.
Proof.
  intros. cbn [parse_check].
  destruct (Z.eqb_spec i 8), (Z.eqb_spec i 13), (Z.eqb_spec i 18), (Z.eqb_spec i 23), (Z.eqb_spec i 36); try lia.
  cbn [orb andb]. apply andb_true_iff.
Qed.
Lemma check_end : parse_check 36 [0] = true.
Proof. reflexivity. Qed.
Ltac check_all H :=
  cbn [app] in H;
  repeat (first
    [ rewrite check_dash in H by (cbn; lia); let D := fresh "D" in destruct H as [D H]
    | rewrite check_digit in H by (cbn; lia); let X := fresh "X" in destruct H as [X H] ]).
Lemma strtoul_digit acc c r : isxdigit c = true -> strtoul16 acc (c :: r) = strtoul16 (acc * 16 + xvalue c) r.
Proof. intros H. cbn [strtoul16]. rewrite H. reflexivity. Qed.
Lemma strtoul_dash acc r : strtoul16 acc (45 :: r) = acc.
Proof. reflexivity. Qed.
Lemma strtoul_nil acc : strtoul16 acc [] = acc.
Proof. reflexivity. Qed.

(* parse of a text whose characters are digits *)
Lemma parse_digits c0 c1 c2 c3 c4 c5 c6 c7 d0 d1 d2 d3 e0 e1 e2 e3 f0 f1 f2 f3 g0 g1 g2 g3 g4 g5 g6 g7 g8 g9 g10 g11 :
  Forall (fun c => isxdigit c = true)
    [c0; c1; c2; c3; c4; c5; c6; c7; d0; d1; d2; d3; e0; e1; e2; e3; f0; f1; f2; f3; g0; g1; g2; g3; g4; g5; g6; g7; g8; g9; g10; g11] ->
  uuid_parse [c0; c1; c2; c3; c4; c5; c6; c7; 45; d0; d1; d2; d3; 45; e0; e1; e2; e3; 45; f0; f1; f2; f3; 45;
              g0; g1; g2; g3; g4; g5; g6; g7; g8; g9; g10; g11] =
  Ok [hv c0 c1; hv c2 c3; hv c4 c5; hv c6 c7; hv d0 d1; hv d2 d3; hv e0 e1; hv e2 e3; hv f0 f1; hv f2 f3;
      hv g0 g1; hv g2 g3; hv g4 g5; hv g6 g7; hv g8 g9; hv g10 g11].
Proof.
  intros H.
  repeat match type of H with
  | Forall _ (_ :: _) => let B := fresh "B" in apply Forall_cons_iff in H; destruct H as [B H]
  end. clear H.
  unfold uuid_parse.
  match goal with |- context [parse_check 0 ?l] => assert (P : parse_check 0 l = true) end.
  { cbn [app]. repeat first
    [ apply check_dash; [cbn; lia|split; [reflexivity|]]
    | apply check_digit; [cbn; lia..|split; [assumption|]] ]. exact check_end. }
  match goal with |- context [zlen ?l =? 36] => change (zlen l =? 36) with true end.
  cbv iota beta delta [negb]. rewrite P. clear P.
  change (@slice Z) with (fun o n (l : list Z) => firstn (Z.to_nat n) (skipn (Z.to_nat o) l)).
  change (@zdrop Z) with (fun n (l : list Z) => skipn (Z.to_nat n) l). cbv beta zeta.
  change (Z.to_nat (24 + 2 * 0)) with 24%nat. change (Z.to_nat (24 + 2 * 1)) with 26%nat. change (Z.to_nat (24 + 2 * 2)) with 28%nat.
  change (Z.to_nat (24 + 2 * 3)) with 30%nat. change (Z.to_nat (24 + 2 * 4)) with 32%nat. change (Z.to_nat (24 + 2 * 5)) with 34%nat.
  change (Z.to_nat 9) with 9%nat. change (Z.to_nat 14) with 14%nat. change (Z.to_nat 19) with 19%nat. change (Z.to_nat 2) with 2%nat.
  cbn [firstn skipn].
  repeat first [rewrite strtoul_dash | rewrite strtoul_nil | rewrite strtoul_digit by assumption].
  repeat match goal with X : isxdigit ?c = true |- _ => apply x_digit in X; apply proj2 in X end.
  match goal with |- Ok (uuid_pack (mkUuid ?a ?b ?c ?d ?e)) = Ok ?r =>
    assert (E : mkUuid a b c d e = mkUuid (be4 (hv c0 c1) (hv c2 c3) (hv c4 c5) (hv c6 c7)) (be2 (hv d0 d1) (hv d2 d3))
      (be2 (hv e0 e1) (hv e2 e3)) (be2 (hv f0 f1) (hv f2 f3)) [hv g0 g1; hv g2 g3; hv g4 g5; hv g6 g7; hv g8 g9; hv g10 g11]) end.
  { unfold be4, be2, hv, u32, u16, u8. rewrite !Z.mod_small by lia.
    repeat (f_equal; try lia). }
  rewrite E. f_equal. apply pack_fields. unfold bytes_ok, hv. repeat (apply Forall_cons; [unfold byte_ok; lia|]). constructor.
Qed.
Lemma hex_of_digits : forall s, Forall (fun c => isxdigit c = true) s -> forall c d, isxdigit c = true -> isxdigit d = true ->
  forall u, hex_text s u -> hex_text (c :: d :: s) (hv c d :: u).
Proof. intros s _ c d C D u H. unfold hv. apply hex_cons; [apply x_digit; assumption..|exact H]. Qed.
Lemma parse_text s u : uuid_parse s = Ok u -> uuid_text s u.
Proof.
  intros P. assert (Z : zlen s = 36 /\ parse_check 0 (s ++ [0]) = true).
  { unfold uuid_parse in P. destruct (Z.eqb_spec (zlen s) 36); [|discriminate]. cbn [negb] in P.
    destruct (parse_check 0 (s ++ [0])); [auto|discriminate]. }
  destruct Z as [L C].
  destruct (zlen36 s L) as (c0 & c1 & c2 & c3 & c4 & c5 & c6 & c7 & c8 & c9 & c10 & c11 & c12 & c13 & c14 & c15 & c16 & c17 & c18 & c19 &
   c20 & c21 & c22 & c23 & c24 & c25 & c26 & c27 & c28 & c29 & c30 & c31 & c32 & c33 & c34 & c35 & ->).
  check_all C. clear C L. subst.
  rewrite parse_digits in P by (repeat (apply Forall_cons; [assumption|]); constructor).
  injection P as <-.
  exists [c0; c1; c2; c3; c4; c5; c6; c7], [c9; c10; c11; c12], [c14; c15; c16; c17], [c19; c20; c21; c22],
    [c24; c25; c26; c27; c28; c29; c30; c31; c32; c33; c34; c35],
    [hv c0 c1; hv c2 c3; hv c4 c5; hv c6 c7], [hv c9 c10; hv c11 c12], [hv c14 c15; hv c16 c17], [hv c19 c20; hv c21 c22],
    [hv c24 c25; hv c26 c27; hv c28 c29; hv c30 c31; hv c32 c33; hv c34 c35].
  split; [reflexivity|]. split; [reflexivity|].
  unfold hv. repeat split; repeat (apply hex_cons; [apply x_digit; assumption..|]); constructor.
Qed.
Ltac inv_hex H L :=
  inversion H as [|?c ?v ?c ?v ?s ?d]; clear H; subst; [cbn in L; discriminate L|].
Lemma hex_text_S s u n : hex_text s u -> length u = S n ->
  exists c d r w, s = c :: d :: r /\ u = hv c d :: w /\ isxdigit c = true /\ isxdigit d = true /\ hex_text r w /\ length w = n.
Proof.
  intros H L. inversion H; subst; [discriminate L|].
  destruct (digit_x _ _ H0) as (A & B & _). destruct (digit_x _ _ H1) as (C & D & _).
  do 4 eexists. split; [reflexivity|]. split; [unfold hv; rewrite B, D; reflexivity|]. cbn in L. injection L as L. auto.
Qed.
Lemma hex_text_0 s u : hex_text s u -> length u = 0%nat -> s = [] /\ u = [].
Proof. intros H L. inversion H; subst; [auto|discriminate L]. Qed.
Ltac peel H L :=
  let c := fresh "c" in let d := fresh "d" in let r := fresh "r" in let w := fresh "w" in let E := fresh "E" in let F := fresh "F" in
  let A := fresh "A" in let B := fresh "B" in
  destruct (hex_text_S _ _ _ H L) as (c & d & r & w & E & F & A & B & ? & ?); subst; clear H L.
Lemma text_parse s u : uuid_text s u -> uuid_parse s = Ok u.
Proof.
  intros (s1 & s2 & s3 & s4 & s5 & u1 & u2 & u3 & u4 & u5 & -> & -> & H1 & H2 & H3 & H4 & H5 & L1 & L2 & L3 & L4 & L5).
  repeat match goal with H : hex_text ?s ?u, L : length ?u = S _ |- _ => peel H L end.
  repeat match goal with H : hex_text ?s ?u, L : length ?u = 0%nat |- _ => destruct (hex_text_0 _ _ H L); subst; clear H L end.
  cbn [app]. apply parse_digits. repeat (apply Forall_cons; [assumption|]). constructor.
Qed.
Lemma parse_iff s u : uuid_parse s = Ok u <-> uuid_text s u.
Proof. split; [apply parse_text|apply text_parse]. Qed.
Lemma parse_rejects s : (forall u, ~ uuid_text s u) -> uuid_parse s = Err (-1).
Proof.
  intros H. destruct (uuid_parse s) as [u|e| |] eqn:E.
  - exfalso. apply (H u). apply parse_text. exact E.
  - unfold uuid_parse in E. destruct (negb _); [congruence|]. destruct (negb _); [congruence|]. discriminate.
  - unfold uuid_parse in E. destruct (negb _); [congruence|]. destruct (negb _); [congruence|]. discriminate.
  - unfold uuid_parse in E. destruct (negb _); [congruence|]. destruct (negb _); [congruence|]. discriminate.
Qed.
Lemma parse_unparse upper u : zlen u = 16 -> bytes_ok u -> uuid_parse (uuid_unparse_x upper u) = Ok u.
Proof. intros L B. apply text_parse. apply unparse_text; assumption. Qed.
(* and back: parsing then formatting is the text in lower (upper) case *)
Lemma hex_text_ok s u : hex_text s u -> bytes_ok u.
Proof.
  induction 1 as [|c1 v1 c2 v2 s d A B _ IH]; [constructor|]. apply Forall_cons; [|exact IH].
  destruct (digit_x _ _ A) as (_ & _ & ? & _). destruct (digit_x _ _ B) as (_ & _ & ? & _). unfold byte_ok. lia.
Qed.
Lemma uuid_text_ok s u : uuid_text s u -> zlen u = 16 /\ bytes_ok u.
Proof.
  intros (s1 & s2 & s3 & s4 & s5 & u1 & u2 & u3 & u4 & u5 & _ & -> & H1 & H2 & H3 & H4 & H5 & L1 & L2 & L3 & L4 & L5). split.
  - rewrite !zlen_app. unfold zlen. rewrite L1, L2, L3, L4, L5. reflexivity.
  - rewrite !bytes_ok_app. repeat split; eapply hex_text_ok; eassumption.
Qed.
Lemma lower_digit c v : hex_digit c v -> to_lower c = hexd false v.
Proof.
  intros H. unfold to_lower, hexd. destruct H as [[]|[[]|[]]]; destruct (Z.leb_spec 65 c), (Z.leb_spec c 90), (Z.ltb_spec v 10); cbn [andb]; lia.
Qed.
Lemma lower_hex s u : hex_text s u -> map to_lower s = flat_map (hexu false) u.
Proof.
  induction 1 as [|c1 v1 c2 v2 s d A B _ IH]; [reflexivity|]. cbn [map flat_map hexu app].
  rewrite (lower_digit _ _ A), (lower_digit _ _ B), IH.
  destruct (digit_x _ _ A) as (_ & _ & ? & _). destruct (digit_x _ _ B) as (_ & _ & ? & _).
  do 2 f_equal; [f_equal; lia|f_equal; f_equal; lia].
Qed.
Lemma unparse_parse s u : uuid_parse s = Ok u -> uuid_unparse_x false u = map to_lower s.
Proof.
  intros P. apply parse_text in P. pose proof (uuid_text_ok _ _ P) as [L B].
  destruct P as (s1 & s2 & s3 & s4 & s5 & u1 & u2 & u3 & u4 & u5 & -> & -> & H1 & H2 & H3 & H4 & H5 & L1 & L2 & L3 & L4 & L5).
  rewrite !map_app. rewrite (lower_hex _ _ H1), (lower_hex _ _ H2), (lower_hex _ _ H3), (lower_hex _ _ H4), (lower_hex _ _ H5).
  do 4 (destruct u1 as [|? u1]; [discriminate|]). destruct u1; [|discriminate].
  do 2 (destruct u2 as [|? u2]; [discriminate|]). destruct u2; [|discriminate].
  do 2 (destruct u3 as [|? u3]; [discriminate|]). destruct u3; [|discriminate].
  do 2 (destruct u4 as [|? u4]; [discriminate|]). destruct u4; [|discriminate].
  do 6 (destruct u5 as [|? u5]; [discriminate|]). destruct u5; [|discriminate].
  exact (unparse_hex false _ _ _ _ _ _ _ _ _ _ _ _ _ _ _ _ B).
Qed.

(* ---- order ---- *)
Lemma memcmp_app a b c d : length a = length b -> memcmp (a ++ c) (b ++ d) = if memcmp a b =? 0 then memcmp c d else memcmp a b.
Proof.
  revert b. induction a as [|x a IH]; intros [|y b] L; try discriminate L; [reflexivity|].
  cbn [app memcmp]. injection L as L. destruct (x =? y); [apply IH; exact L|]. destruct (x <? y); reflexivity.
Qed.
Definition cmpz (x y : Z) : Z := if x =? y then 0 else if x <? y then -1 else 1.
Lemma cmp_be2 a b c d : 0 <= a < 256 -> 0 <= b < 256 -> 0 <= c < 256 -> 0 <= d < 256 ->
  cmpz (be2 a b) (be2 c d) = memcmp [a; b] [c; d].
Proof.
  intros. unfold cmpz, be2. cbn [memcmp].
  destruct (Z.eqb_spec a c), (Z.eqb_spec b d), (Z.eqb_spec (256 * a + b) (256 * c + d)), (Z.ltb_spec a c), (Z.ltb_spec b d),
    (Z.ltb_spec (256 * a + b) (256 * c + d)); lia.
Qed.
Lemma cmp_be4 a b c d a' b' c' d' : bytes_ok [a; b; c; d] -> bytes_ok [a'; b'; c'; d'] ->
  cmpz (be4 a b c d) (be4 a' b' c' d') = memcmp [a; b; c; d] [a'; b'; c'; d'].
Proof.
  intros H H'. break_bytes H. break_bytes H'. unfold cmpz, be4. cbn [memcmp].
  destruct (Z.eqb_spec a a'); [|destruct (Z.ltb_spec a a')];
  (destruct (Z.eqb_spec b b'); [|destruct (Z.ltb_spec b b')]);
  (destruct (Z.eqb_spec c c'); [|destruct (Z.ltb_spec c c')]);
  (destruct (Z.eqb_spec d d'); [|destruct (Z.ltb_spec d d')]);
  match goal with |- context [?x =? ?y] => destruct (Z.eqb_spec x y) end;
  match goal with |- context [?x <? ?y] => destruct (Z.ltb_spec x y) | _ => idtac end; lia.
Qed.
Lemma compare_memcmp u v : zlen u = 16 -> zlen v = 16 -> bytes_ok u -> bytes_ok v -> uuid_compare u v = memcmp u v.
Proof.
  intros L L' H H'.
  destruct (zlen16 u L) as (b0 & b1 & b2 & b3 & b4 & b5 & b6 & b7 & b8 & b9 & n0 & n1 & n2 & n3 & n4 & n5 & ->).
  destruct (zlen16 v L') as (x0 & x1 & x2 & x3 & x4 & x5 & x6 & x7 & x8 & x9 & m0 & m1 & m2 & m3 & m4 & m5 & ->).
  unfold uuid_compare. cbv zeta. rewrite !unpack_fields by assumption. cbn [time_low time_mid time_hi clock_seq node].
  change (ztake 6 [n0; n1; n2; n3; n4; n5]) with [n0; n1; n2; n3; n4; n5].
  change (ztake 6 [m0; m1; m2; m3; m4; m5]) with [m0; m1; m2; m3; m4; m5].
  assert (S : bytes_ok [b0; b1; b2; b3] /\ bytes_ok [x0; x1; x2; x3]).
  { split; [change [b0; b1; b2; b3] with (firstn 4 [b0; b1; b2; b3; b4; b5; b6; b7; b8; b9; n0; n1; n2; n3; n4; n5])
           |change [x0; x1; x2; x3] with (firstn 4 [x0; x1; x2; x3; x4; x5; x6; x7; x8; x9; m0; m1; m2; m3; m4; m5])];
      apply Forall_firstn'; assumption. }
  destruct S as [S S'].
  pose proof (cmp_be4 _ _ _ _ _ _ _ _ S S') as C4. break_bytes H. break_bytes H'.
  pose proof (cmp_be2 b4 b5 x4 x5 ltac:(assumption) ltac:(assumption) ltac:(assumption) ltac:(assumption)) as C5.
  pose proof (cmp_be2 b6 b7 x6 x7 ltac:(assumption) ltac:(assumption) ltac:(assumption) ltac:(assumption)) as C6.
  pose proof (cmp_be2 b8 b9 x8 x9 ltac:(assumption) ltac:(assumption) ltac:(assumption) ltac:(assumption)) as C7.
  change [b0; b1; b2; b3; b4; b5; b6; b7; b8; b9; n0; n1; n2; n3; n4; n5] with
      ([b0; b1; b2; b3] ++ [b4; b5] ++ [b6; b7] ++ [b8; b9] ++ [n0; n1; n2; n3; n4; n5]).
  change [x0; x1; x2; x3; x4; x5; x6; x7; x8; x9; m0; m1; m2; m3; m4; m5] with
      ([x0; x1; x2; x3] ++ [x4; x5] ++ [x6; x7] ++ [x8; x9] ++ [m0; m1; m2; m3; m4; m5]).
  rewrite !memcmp_app by reflexivity. rewrite <- C4, <- C5, <- C6, <- C7.
  assert (K : forall x y k, (if x =? y then k else if x <? y then -1 else 1) = if cmpz x y =? 0 then k else cmpz x y).
  { intros. unfold cmpz. destruct (Z.eqb_spec x y); [reflexivity|]. destruct (x <? y); reflexivity. }
  rewrite !K. reflexivity.
Qed.
Lemma memcmp_spec a : forall b, length a = length b ->
  (memcmp a b = 0 /\ a = b) \/ (memcmp a b = -1 /\ lex_lt a b) \/ (memcmp a b = 1 /\ lex_lt b a).
Proof.
  induction a as [|x a IH]; intros [|y b] L; try discriminate L; [left; auto|].
  injection L as L. cbn [memcmp]. destruct (Z.eqb_spec x y) as [->|N].
  - destruct (IH b L) as [[-> ->]|[[-> (p & s & t & r & q & -> & -> & T)]|[-> (p & s & t & r & q & -> & -> & T)]]].
    + auto.
    + right. left. split; [reflexivity|]. exists (y :: p), s, t, r, q. auto.
    + right. right. split; [reflexivity|]. exists (y :: p), s, t, r, q. auto.
  - destruct (Z.ltb_spec x y).
    + right. left. split; [reflexivity|]. exists [], x, y, a, b. auto.
    + right. right. split; [reflexivity|]. exists [], y, x, b, a. split; [reflexivity|]. split; [reflexivity|]. lia.
Qed.
Lemma lex_irrefl a b : lex_lt a b -> a <> b.
Proof.
  intros (p & x & y & r & s & -> & -> & H) E. apply app_inv_head in E. injection E as E _. lia.
Qed.
Lemma lex_asym a b : lex_lt a b -> ~ lex_lt b a.
Proof.
  intros (p & x & y & r & s & -> & -> & H) (p' & x' & y' & r' & s' & E & E' & H').
  revert p' E E'. induction p as [|z p IH]; intros p' E E'.
  - destruct p' as [|z' p']; cbn in E, E'; [injection E as -> _; injection E' as -> _; lia|].
    injection E as -> _. injection E' as -> _. lia.
  - destruct p' as [|z' p']; cbn in E, E'; [injection E as -> _; injection E' as -> _; lia|].
    injection E as _ E. injection E' as _ E'. exact (IH p' E E').
Qed.
Lemma compare_iff u v : zlen u = 16 -> zlen v = 16 -> bytes_ok u -> bytes_ok v ->
  (uuid_compare u v = 0 <-> u = v) /\ (uuid_compare u v < 0 <-> lex_lt u v) /\ (uuid_compare u v > 0 <-> lex_lt v u).
Proof.
  intros L L' B B'. rewrite compare_memcmp by assumption.
  destruct (memcmp_spec u v ltac:(unfold zlen in *; lia)) as [[-> E]|[[-> E]|[-> E]]].
  - subst. split; [tauto|]. split; (split; [lia|]; intros X; exfalso; exact (lex_irrefl _ _ X eq_refl)).
  - split; [split; [lia|intros X; exfalso; exact (lex_irrefl _ _ E X)]|].
    split; [split; [auto|lia]|]. split; [lia|]. intros X. exfalso. exact (lex_asym _ _ E X).
  - split; [split; [lia|intros X; exfalso; exact (lex_irrefl _ _ E (eq_sym X))]|].
    split; [|split; [auto|lia]]. split; [lia|]. intros X. exfalso. exact (lex_asym _ _ E X).
Qed.
Lemma is_null_iff u : zlen u = 16 -> uuid_is_null u = true <-> u = zeros 16.
Proof.
  intros L. unfold uuid_is_null. rewrite ztake_all by lia.
  assert (LL : length u = 16%nat) by (unfold zlen in L; lia). change (zeros 16) with (repeat 0 16). rewrite <- LL. clear L LL.
  induction u as [|x u IH]; [split; reflexivity|]. cbn [forallb repeat length]. rewrite andb_true_iff, Z.eqb_eq, IH.
  split; [intros [-> E]; f_equal; exact E|]. intros E. injection E as -> E. auto.
Qed.

(* ---- bpak_uuid_to_string ---- *)
Lemma unparse_len upper u : zlen u = 16 -> bytes_ok u -> zlen (uuid_unparse_x upper u) = 36.
Proof.
  intros L B. pose proof (parse_unparse upper u L B) as P. unfold uuid_parse in P.
  destruct (Z.eqb_spec (zlen (uuid_unparse_x upper u)) 36); [assumption|discriminate].
Qed.
Lemma to_string_exact u buf : zlen u = 16 -> bytes_ok u ->
  (zlen buf < 37 -> uuid_to_string u buf = (buf, Err E_SIZE_ERROR)) /\
  (37 <= zlen buf -> uuid_to_string u buf = (uuid_unparse_x false u ++ [0] ++ zdrop 37 buf, Ok tt)).
Proof.
  intros L B. unfold uuid_to_string. cbv zeta. pose proof (unparse_len false u L B) as U. split; intros H.
  - destruct (Z.ltb_spec (zlen buf) 37); [reflexivity|lia].
  - destruct (Z.ltb_spec (zlen buf) 37); [lia|]. rewrite zlen_app, U. change (zlen [0]) with 1.
    rewrite Z.gtb_ltb. destruct (Z.ltb_spec (zlen buf) (36 + 1)); [lia|]. unfold splice. rewrite ztake_0. cbn [app].
    rewrite zlen_app, U. change (zlen [0]) with 1. change (0 + (36 + 1)) with 37. rewrite <- app_assoc. reflexivity.
Qed.
Lemma not_zero_unparse u : zlen u = 16 -> bytes_ok u -> ~ In 0 (uuid_unparse_x false u).
Proof. intros L B I. destruct (unparse_case false u 0 L B I) as [|[|]]; lia. Qed.
