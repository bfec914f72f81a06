(* BspatchProofs.v -- patch integers; the patch applier consumes its input byte
   by byte *)
From Verif Require Import Base BaseLemmas BspatchModel BspatchSpec.
From Coq Require Import ZifyBool.

(* ---- patch integers -------------------------------------------------- *)
Lemma offtout_loop_le n y : 0 <= y -> offtout_loop n y = le n y.
Proof.
  revert y; induction n as [|n IH]; intros y Hy; cbn [offtout_loop le]; [reflexivity|].
  pose proof (Z.mod_pos_bound y 256 ltac:(lia)) as B.
  rewrite Z.rem_mod_nonneg by lia. unfold u8. rewrite Z.mod_mod by lia.
  pose proof (Z.mod_le y 256 Hy ltac:(lia)).
  rewrite Z.quot_div_nonneg by lia.
  replace ((y - y mod 256) / 256) with (y / 256).
  - f_equal. apply IH. apply Z.div_pos; lia.
  - rewrite (Z.div_mod y 256) at 2 by lia. replace (256 * (y / 256) + y mod 256 - y mod 256) with ((y / 256) * 256) by lia.
    rewrite Z.div_mul; lia.
Qed.
Lemma lor_top b : 0 <= b < 128 -> Z.lor b 128 = b + 128.
Proof.
  intros H.
  assert (E : forallb (fun i => Z.lor (Z.of_nat i) 128 =? Z.of_nat i + 128) (seq 0 128) = true) by (vm_compute; reflexivity).
  rewrite forallb_forall in E. specialize (E (Z.to_nat b)).
  rewrite Z2Nat.id in E by lia. apply Z.eqb_eq, E, in_seq. lia.
Qed.
Lemma le_snoc n v : 0 <= v -> le (S n) v = le n v ++ [v / 256 ^ Z.of_nat n mod 256].
Proof.
  revert v; induction n as [|n IH]; intros v Hv.
  - cbn [le app Z.of_nat]. rewrite Z.pow_0_r, Z.div_1_r. reflexivity.
  - change (le (S (S n)) v) with (v mod 256 :: le (S n) (v / 256)).
    rewrite IH by (apply Z.div_pos; lia). cbn [le app]. f_equal. f_equal. f_equal. f_equal.
    rewrite Z.div_div by lia. f_equal. rewrite Nat2Z.inj_succ, Z.pow_succ_r by lia. lia.
Qed.
Lemma offtout_enc x : - 2^63 < x < 2^63 -> offtout x = Ok (enc_int x).
Proof.
  intros H. unfold offtout. destruct (Z.eqb_spec x (- 2^63)) as [E|_]; [lia|]. f_equal.
  replace (if x <? 0 then - x else x) with (Z.abs x) by (destruct (Z.ltb_spec x 0); lia).
  rewrite offtout_loop_le by lia. rewrite le_snoc by lia. unfold enc_int.
  change (256 ^ Z.of_nat 7) with (2^56).
  assert (D : 0 <= Z.abs x / 2^56 < 128) by (split; [apply Z.div_pos; lia | apply Z.div_lt_upper_bound; lia]).
  rewrite (Z.mod_small (Z.abs x / 2^56) 256) by lia.
  destruct (Z.ltb_spec x 0); [|rewrite Z.add_0_r; reflexivity].
  rewrite app_nth2 by (rewrite length_le; lia). rewrite length_le. cbn [nth Nat.sub].
  rewrite lor_top by lia.
  replace 7%nat with (length (le 7 (Z.abs x))) at 1 by (rewrite length_le; reflexivity).
  apply list_upd_middle.
Qed.
Lemma land_high b : 0 <= b < 256 -> Z.land b 127 = b mod 128 /\ (Z.land b 128 =? 0) = (b <? 128).
Proof.
  intros H. split.
  - change 127 with (Z.ones 7). rewrite Z.land_ones by lia. reflexivity.
  - assert (E : forallb (fun i => Bool.eqb (Z.land (Z.of_nat i) 128 =? 0) (Z.of_nat i <? 128)) (seq 0 256) = true)
      by (vm_compute; reflexivity).
    rewrite forallb_forall in E. specialize (E (Z.to_nat b)).
    rewrite Z2Nat.id in E by lia. apply eqb_prop, E, in_seq. lia.
Qed.
Lemma offtin_value b : bytes_ok b -> zlen b = 8 ->
  offtin b = (if nth 7 b 0 <? 128 then unle b else - (unle b - 2^63)).
Proof.
  intros Hb Hl. unfold zlen in Hl.
  destruct b as [|b0 [|b1 [|b2 [|b3 [|b4 [|b5 [|b6 [|b7 [|? ?]]]]]]]]]; cbn [length] in Hl; try lia.
  unfold bytes_ok in Hb. rewrite !Forall_cons_iff in Hb.
  destruct Hb as (H0 & H1 & H2 & H3 & H4 & H5 & H6 & H7 & _). unfold byte_ok in *.
  unfold offtin. cbn [nth]. destruct (land_high b7 H7) as [L1 L2]. rewrite L1, L2. cbn [unle].
  destruct (Z.ltb_spec b7 128).
  - rewrite Z.mod_small by lia. lia.
  - replace (b7 mod 128) with (b7 - 128) by (apply Z.mod_unique with 1; lia). lia.
Qed.
Lemma unle_app a b : unle (a ++ b) = unle a + 256 ^ zlen a * unle b.
Proof.
  induction a as [|x a IH]; cbn [app unle]; [change (zlen (@nil Z)) with 0; lia|].
  rewrite IH, zlen_cons. pose proof (zlen_nonneg a). rewrite Z.pow_add_r by lia. lia.
Qed.
Lemma unle_le_mod n v : 0 <= v -> unle (le n v) = v mod 256 ^ Z.of_nat n.
Proof.
  revert v; induction n as [|n IH]; intros v Hv; [cbn [le unle]; rewrite Z.mod_1_r; reflexivity|].
  cbn [le unle]. rewrite IH by (apply Z.div_pos; lia).
  rewrite Nat2Z.inj_succ, Z.pow_succ_r by lia.
  rewrite Z.rem_mul_r by lia. lia.
Qed.
Lemma zlen_enc_int x : zlen (enc_int x) = 8.
Proof. unfold enc_int. rewrite zlen_app, zlen_le. reflexivity. Qed.
Lemma enc_int_ok x : - 2^63 < x < 2^63 -> bytes_ok (enc_int x).
Proof.
  intros H. unfold enc_int. rewrite bytes_ok_app. split; [apply bytes_ok_le|].
  apply bytes_ok_cons. split; [|apply bytes_ok_nil]. unfold byte_ok.
  assert (D : 0 <= Z.abs x / 2^56 < 128) by (split; [apply Z.div_pos; lia | apply Z.div_lt_upper_bound; lia]).
  destruct (Z.ltb_spec x 0); lia.
Qed.
Lemma offtin_enc x : - 2^63 < x < 2^63 -> offtin (enc_int x) = x.
Proof.
  intros H. rewrite offtin_value by (auto using enc_int_ok, zlen_enc_int).
  assert (D : 0 <= Z.abs x / 2^56 < 128) by (split; [apply Z.div_pos; lia | apply Z.div_lt_upper_bound; lia]).
  unfold enc_int. rewrite app_nth2 by (rewrite length_le; lia). rewrite length_le. cbn [nth Nat.sub].
  rewrite unle_app, zlen_le, unle_le_mod by lia. cbn [unle].
  change (256 ^ Z.of_nat 7) with (2^56).
  pose proof (Z.div_mod (Z.abs x) (2^56) ltac:(lia)).
  destruct (Z.ltb_spec x 0).
  - destruct (Z.ltb_spec (Z.abs x / 2^56 + 128) 128); lia.
  - destruct (Z.ltb_spec (Z.abs x / 2^56 + 0) 128); lia.
Qed.
Lemma offtin_range b : bytes_ok b -> zlen b = 8 -> - 2^63 < offtin b < 2^63.
Proof.
  intros Hb Hl. rewrite offtin_value by auto. unfold zlen in Hl.
  destruct b as [|b0 [|b1 [|b2 [|b3 [|b4 [|b5 [|b6 [|b7 [|? ?]]]]]]]]]; cbn [length] in Hl; try lia.
  unfold bytes_ok in Hb. rewrite !Forall_cons_iff in Hb.
  destruct Hb as (H0 & H1 & H2 & H3 & H4 & H5 & H6 & H7 & _). unfold byte_ok in *.
  cbn [nth unle]. destruct (Z.ltb_spec b7 128); lia.
Qed.

(* ---- writing a file in pieces ---------------------------------------- *)
Lemma fwrite_at_app f o a b : 0 <= o ->
  fwrite_at f o (a ++ b) = fwrite_at (fwrite_at f o a) (o + zlen a) b.
Proof.
  intros Ho. pose proof (zlen_nonneg a); pose proof (zlen_nonneg b); pose proof (zlen_nonneg f).
  unfold fwrite_at at 3. destruct (Z.eqb_spec (zlen a) 0) as [Ea|Ea].
  - rewrite (zlen_0_nil _ Ea). cbn [app]. rewrite (@zlen_nil Z), Z.add_0_r. reflexivity.
  - destruct (Z.leb_spec o (zlen f)).
    + rewrite fwrite_at_in by lia. rewrite fwrite_at_in; [| lia |].
      2:{ unfold splice. rewrite !zlen_app, zlen_ztake, zlen_zdrop. lia. }
      unfold splice. rewrite (app_assoc (ztake o f) a).
      assert (L : zlen (ztake o f ++ a) = o + zlen a) by (rewrite zlen_app, zlen_ztake; lia).
      rewrite ztake_app_l by lia. rewrite (ztake_all (o + zlen a)) by lia.
      rewrite zdrop_app_r by lia. rewrite zdrop_zdrop by lia.
      rewrite zlen_app. rewrite L.
      replace (o + zlen a + zlen b - (o + zlen a) + (o + zlen a)) with (o + (zlen a + zlen b)) by lia.
      rewrite <- !app_assoc. reflexivity.
    + unfold fwrite_at at 1. rewrite zlen_app.
      destruct (Z.eqb_spec (zlen a + zlen b) 0); [lia|].
      destruct (Z.leb_spec o (zlen f)); [lia|].
      rewrite fwrite_at_end. 2:{ rewrite !zlen_app, zlen_zeros. lia. }
      rewrite <- !app_assoc. reflexivity.
Qed.
Lemma zlen_add_bytes a b : zlen (add_bytes a b) = Z.min (zlen a) (zlen b).
Proof.
  revert b; induction a as [|x a IH]; intros b.
  - cbn [add_bytes]. rewrite !(@zlen_nil Z). pose proof (zlen_nonneg b). lia.
  - destruct b as [|y b]; cbn [add_bytes]; rewrite ?(@zlen_nil Z), ?zlen_cons.
    + pose proof (zlen_nonneg a). lia.
    + rewrite IH. lia.
Qed.

(* ---- the applier, one byte at a time --------------------------------- *)
(* the visible outcome of a call; after an error only the code counts *)
Definition bout (x : bsctx * bytes * res unit) : res (bsctx * bytes) :=
  match x with
  | (c, f, Ok _) => Ok (c, f)
  | (_, _, Err e) => Err e
  | (_, _, UB) => UB
  | (_, _, Stuck) => Stuck
  end.
Definition after_diff (c : bsctx) : res bsctx :=
  if bs_diff c =? 0 then
    if bs_extra c >? 0 then Ok (mkBs BExtra (bs_ctrl c) (bs_diff c) (bs_extra c) (bs_adj c) (bs_opos c) (bs_wpos c))
    else bs_next c
  else Ok c.
Definition settle (ooff : Z) (c : bsctx) : res bsctx :=
  match bs_state c with
  | BDiff => if bs_diff c =? 0 then
               if negb (in_i64 (ooff + bs_opos c)) then UB
               else if ooff + bs_opos c <? 0 then Err E_SEEK_ERROR else after_diff c
             else Ok c
  | _ => Ok c
  end.
Definition bbyte (o : bytes) (ooff woff : Z) (c : bsctx) (f : bytes) (b : Z) : res (bsctx * bytes) :=
  match bs_state c with
  | BFill =>
      let ctrl := bs_ctrl c ++ [b] in
      Ok (if zlen ctrl =? 24
          then (mkBs BDiff ctrl (offtin (slice 0 8 ctrl)) (offtin (slice 8 8 ctrl)) (offtin (slice 16 8 ctrl))
                  (bs_opos c) (bs_wpos c), f)
          else (mkBs BFill ctrl (bs_diff c) (bs_extra c) (bs_adj c) (bs_opos c) (bs_wpos c), f))
  | BDiff =>
      if bs_diff c <? 0 then UB
      else if negb (in_i64 (ooff + bs_opos c)) then UB
      else if ooff + bs_opos c <? 0 then Err E_SEEK_ERROR
      else match slice (ooff + bs_opos c) 1 o with
           | [x] =>
               do c1 <- after_diff (mkBs BDiff (bs_ctrl c) (bs_diff c - 1) (bs_extra c) (bs_adj c)
                                      (bs_opos c + 1) (bs_wpos c + 1));
               Ok (c1, fwrite_at f (woff + bs_wpos c) [u8 (x + b)])
           | _ => Err E_PATCH_READ_ORIGIN_ERROR
           end
  | BExtra =>
      let c1 := mkBs BExtra (bs_ctrl c) (bs_diff c) (bs_extra c - 1) (bs_adj c) (bs_opos c) (bs_wpos c + 1) in
      do c2 <- (if bs_extra c1 =? 0 then bs_next c1 else Ok c1);
      Ok (c2, fwrite_at f (woff + bs_wpos c) [b])
  | BError => Err (-1)
  | BRead => Ok (c, f) (* not between bytes *)
  end.
Definition bstep (o : bytes) (ooff woff : Z) (s : bsctx * bytes) (b : Z) : res (bsctx * bytes) :=
  do c <- settle ooff (fst s); bbyte o ooff woff c (snd s) b.
Fixpoint brun (o : bytes) (ooff woff : Z) (s : bsctx * bytes) (l : bytes) : res (bsctx * bytes) :=
  match l with
  | [] => Ok s
  | b :: r => do s1 <- bstep o ooff woff s b; brun o ooff woff s1 r
  end.
(* what holds between calls *)
Definition bwf (c : bsctx) : Prop :=
  0 <= bs_wpos c /\
  match bs_state c with
  | BFill => zlen (bs_ctrl c) < 24
  | BExtra => 0 < bs_extra c
  | BRead => False
  | _ => True
  end.
Lemma bwf_init : bwf bs_init.
Proof. unfold bwf, bs_init; cbn [bs_state bs_wpos bs_ctrl]. change (zlen (@nil Z)) with 0. lia. Qed.

Lemma brun_app o ooff woff s a b :
  brun o ooff woff s (a ++ b) = (do s1 <- brun o ooff woff s a; brun o ooff woff s1 b).
Proof.
  revert s; induction a as [|x a IH]; intros s; cbn [app brun]; [reflexivity|].
  destruct (bstep o ooff woff s x) as [s1| | |]; cbn [bind]; auto.
Qed.

Lemma bs_next_wf c c1 : 0 <= bs_wpos c -> bs_next c = Ok c1 -> bwf c1.
Proof.
  unfold bs_next. intros H. destruct (in_i64 _); [|discriminate]. intros E. injection E as <-.
  unfold bwf; cbn [bs_state bs_wpos bs_ctrl]. change (zlen (@nil Z)) with 0. lia.
Qed.
Lemma bs_next_kind c : (exists c1, bs_next c = Ok c1 /\ bs_state c1 = BFill /\ bs_wpos c1 = bs_wpos c) \/ bs_next c = UB.
Proof. unfold bs_next. destruct (in_i64 _); [left; eexists; repeat split | right; reflexivity]. Qed.
Lemma after_diff_wf c c1 : bs_state c = BDiff -> 0 <= bs_wpos c -> after_diff c = Ok c1 -> bwf c1.
Proof.
  unfold after_diff. intros S H. destruct (bs_diff c =? 0).
  - destruct (Z.gtb_spec (bs_extra c) 0).
    + intros E. injection E as <-. unfold bwf; cbn [bs_state bs_wpos bs_extra]. lia.
    + apply bs_next_wf; exact H.
  - intros E. injection E as <-. unfold bwf. rewrite S. auto.
Qed.
Lemma after_diff_kind c : (exists c1, after_diff c = Ok c1) \/ after_diff c = UB.
Proof.
  unfold after_diff. destruct (bs_diff c =? 0); [|eauto]. destruct (bs_extra c >? 0); [eauto|].
  destruct (bs_next_kind c) as [(c1 & E & _)|E]; eauto.
Qed.
Lemma settle_wf ooff c c1 : bwf c -> settle ooff c = Ok c1 -> bwf c1.
Proof.
  intros W. unfold settle. destruct (bs_state c) eqn:S; try (intros E; injection E as <-; exact W).
  destruct (bs_diff c =? 0); [|intros E; injection E as <-; exact W].
  destruct (negb _); [discriminate|]. destruct (_ <? 0); [discriminate|].
  apply after_diff_wf; [exact S | apply W].
Qed.
Lemma settle_idem ooff c c1 : settle ooff c = Ok c1 -> settle ooff c1 = Ok c1.
Proof.
  unfold settle. destruct (bs_state c) eqn:S; try (intros E; injection E as <-; rewrite S; reflexivity).
  destruct (bs_diff c =? 0) eqn:D; [|intros E; injection E as <-; rewrite S, D; reflexivity].
  destruct (negb _); [discriminate|]. destruct (_ <? 0); [discriminate|].
  unfold after_diff. rewrite D. destruct (bs_extra c >? 0).
  - intros E. injection E as <-. reflexivity.
  - unfold bs_next. destruct (in_i64 _); [|discriminate]. intros E. injection E as <-. reflexivity.
Qed.
Lemma bbyte_wf o ooff woff c f b c1 f1 : bwf c -> bbyte o ooff woff c f b = Ok (c1, f1) -> bwf c1.
Proof.
  intros [W1 W2]. unfold bbyte. destruct (bs_state c) eqn:S.
  - rewrite zlen_app, zlen_cons, (@zlen_nil Z). destruct (Z.eqb_spec (zlen (bs_ctrl c) + (1 + 0)) 24); intros E; injection E as <- <-;
      unfold bwf; cbn [bs_state bs_wpos bs_ctrl]; rewrite ?zlen_app, ?zlen_cons, ?(@zlen_nil Z); lia.
  - contradiction.
  - destruct (bs_diff c <? 0); [discriminate|]. destruct (negb _); [discriminate|]. destruct (_ <? 0); [discriminate|].
    destruct (slice _ 1 o) as [|x [|]]; try discriminate.
    destruct (after_diff _) eqn:A; cbn [bind]; try discriminate. intros E. injection E as <- <-.
    eapply after_diff_wf; [| |exact A]; cbn [bs_state bs_wpos]; [reflexivity|lia].
  - cbn [bs_extra]. destruct (Z.eqb_spec (bs_extra c - 1) 0).
    + destruct (bs_next _) eqn:A; cbn [bind]; try discriminate. intros E. injection E as <- <-.
      eapply bs_next_wf; [|exact A]. cbn [bs_wpos]. lia.
    + cbn [bind]. intros E. injection E as <- <-. unfold bwf; cbn [bs_state bs_wpos bs_extra]. lia.
  - discriminate.
Qed.
Lemma bstep_wf o ooff woff s b s1 : bwf (fst s) -> bstep o ooff woff s b = Ok s1 -> bwf (fst s1).
Proof.
  unfold bstep. intros W. destruct (settle ooff (fst s)) as [c| | |] eqn:S; cbn [bind]; try discriminate.
  destruct s1 as [c1 f1]. apply bbyte_wf. eapply settle_wf; eauto.
Qed.
Lemma brun_wf o ooff woff l s s1 : bwf (fst s) -> brun o ooff woff s l = Ok s1 -> bwf (fst s1).
Proof.
  revert s; induction l as [|b l IH]; intros s W; cbn [brun]; [intros E; injection E as <-; exact W|].
  destruct (bstep o ooff woff s b) as [s2| | |] eqn:E; cbn [bind]; try discriminate.
  apply IH. eapply bstep_wf; eauto.
Qed.
Lemma bstep_settle o ooff woff c f b c1 : settle ooff c = Ok c1 ->
  bstep o ooff woff (c1, f) b = bstep o ooff woff (c, f) b.
Proof. intros E. unfold bstep. cbn [fst snd]. rewrite E, (settle_idem _ _ _ E). reflexivity. Qed.
Lemma brun_settle o ooff woff c f l c1 : settle ooff c = Ok c1 -> l <> [] ->
  brun o ooff woff (c1, f) l = brun o ooff woff (c, f) l.
Proof. intros E. destruct l as [|b l]; [congruence|]. intros _. cbn [brun]. rewrite (bstep_settle _ _ _ _ _ _ _ E). reflexivity. Qed.

(* runs of bytes inside one field *)
Lemma fill_run o ooff woff d c f :
  bs_state c = BFill -> zlen (bs_ctrl c) + zlen d < 24 ->
  brun o ooff woff (c, f) d =
  Ok (mkBs BFill (bs_ctrl c ++ d) (bs_diff c) (bs_extra c) (bs_adj c) (bs_opos c) (bs_wpos c), f).
Proof.
  revert c; induction d as [|b d IH]; intros c S L.
  - cbn [brun]. rewrite app_nil_r. destruct c; cbn in *; subst; reflexivity.
  - rewrite zlen_cons in L. pose proof (zlen_nonneg d). cbn [brun]. unfold bstep, settle, bbyte. cbn [fst snd]. rewrite S.
    cbn [bind]. rewrite S. rewrite zlen_app, zlen_cons, (@zlen_nil Z). destruct (Z.eqb_spec (zlen (bs_ctrl c) + (1 + 0)) 24); [lia|].
    cbn [bind]. rewrite IH; cbn [bs_state bs_ctrl bs_diff bs_extra bs_adj bs_opos bs_wpos]; [|reflexivity|rewrite zlen_app, zlen_cons, (@zlen_nil Z); lia].
    rewrite <- app_assoc. reflexivity.
Qed.
Definition read_ctrl (c : bsctx) (ctrl : bytes) : bsctx :=
  mkBs BDiff ctrl (offtin (slice 0 8 ctrl)) (offtin (slice 8 8 ctrl)) (offtin (slice 16 8 ctrl)) (bs_opos c) (bs_wpos c).
Lemma fill_full o ooff woff d c f :
  bs_state c = BFill -> d <> [] -> zlen (bs_ctrl c) + zlen d = 24 ->
  brun o ooff woff (c, f) d = Ok (read_ctrl c (bs_ctrl c ++ d), f).
Proof.
  intros S N L. destruct (exists_last N) as (d' & b & ->). rewrite zlen_app, zlen_cons, (@zlen_nil Z) in L.
  rewrite brun_app, (fill_run o ooff woff d') by (try exact S; lia). cbn [bind brun]. unfold bstep, settle, bbyte. cbn [fst snd bs_state bind bs_ctrl].
  rewrite !zlen_app, zlen_cons, (@zlen_nil Z). destruct (Z.eqb_spec (zlen (bs_ctrl c) + zlen d' + (1 + 0)) 24); [|lia].
  cbn [bind]. unfold read_ctrl. rewrite <- app_assoc. reflexivity.
Qed.
Lemma slice_one o (l : bytes) : 0 <= o -> o < zlen l -> exists y, slice o 1 l = [y] /\ forall n, 1 <= n -> slice o n l = y :: slice (o + 1) (n - 1) l.
Proof.
  intros H1 H2. assert (L := zlen_slice_in o 1 l H1 ltac:(lia) ltac:(lia)).
  unfold zlen in L. destruct (slice o 1 l) as [|y [|? ?]] eqn:E; cbn [length] in L; try lia.
  exists y. split; [reflexivity|]. intros n Hn. replace n with (1 + (n - 1)) at 1 by lia.
  rewrite slice_split by lia. rewrite E. reflexivity.
Qed.
Lemma diff_run o ooff woff d c f :
  bs_state c = BDiff -> d <> [] -> zlen d <= bs_diff c -> 0 <= woff -> 0 <= bs_wpos c ->
  0 <= ooff + bs_opos c < 2^63 -> zlen o < 2^63 ->
  brun o ooff woff (c, f) d =
  if ooff + bs_opos c + zlen d <=? zlen o then
    do c1 <- after_diff (mkBs BDiff (bs_ctrl c) (bs_diff c - zlen d) (bs_extra c) (bs_adj c)
                          (bs_opos c + zlen d) (bs_wpos c + zlen d));
    Ok (c1, fwrite_at f (woff + bs_wpos c) (add_bytes (slice (ooff + bs_opos c) (zlen d) o) d))
  else Err E_PATCH_READ_ORIGIN_ERROR.
Proof.
  revert c f; induction d as [|b d IH]; intros c f S N L HW HP HO Ho; [congruence|].
  pose proof (zlen_nonneg d). rewrite zlen_cons in *. cbn [brun].
  unfold bstep. cbn [fst snd]. assert (settle ooff c = Ok c) as ->.
  { unfold settle. rewrite S. destruct (Z.eqb_spec (bs_diff c) 0); [lia|reflexivity]. }
  cbn [bind]. unfold bbyte. rewrite S.
  destruct (Z.ltb_spec (bs_diff c) 0); [lia|].
  assert (in_i64 (ooff + bs_opos c) = true) as -> by (unfold in_i64; lia). cbn [negb].
  destruct (Z.ltb_spec (ooff + bs_opos c) 0); [lia|].
  destruct (Z.ltb_spec (ooff + bs_opos c) (zlen o)).
  - destruct (slice_one (ooff + bs_opos c) o ltac:(lia) ltac:(lia)) as (y & Ey & En). rewrite Ey.
    destruct d as [|b2 d].
    + rewrite (@zlen_nil Z) in *. destruct (Z.leb_spec (ooff + bs_opos c + (1 + 0)) (zlen o)); [|lia].
      change (1 + 0) with 1. rewrite Ey. cbn [add_bytes].
      destruct (after_diff _); cbn [bind brun]; reflexivity.
    + unfold after_diff at 1. cbn [bs_diff]. rewrite zlen_cons in *. pose proof (zlen_nonneg d).
      destruct (Z.eqb_spec (bs_diff c - 1) 0); [lia|]. cbn [bind].
      rewrite IH; clear IH; cbn [bs_state bs_diff bs_wpos bs_opos bs_ctrl bs_extra bs_adj]; try lia; try congruence.
      replace (ooff + (bs_opos c + 1) + (1 + zlen d)) with (ooff + bs_opos c + (1 + (1 + zlen d))) by lia.
      destruct (Z.leb_spec (ooff + bs_opos c + (1 + (1 + zlen d))) (zlen o)); [|reflexivity].
      replace (bs_diff c - 1 - (1 + zlen d)) with (bs_diff c - (1 + (1 + zlen d))) by lia.
      replace (bs_opos c + 1 + (1 + zlen d)) with (bs_opos c + (1 + (1 + zlen d))) by lia.
      replace (bs_wpos c + 1 + (1 + zlen d)) with (bs_wpos c + (1 + (1 + zlen d))) by lia.
      destruct (after_diff _); cbn [bind]; try reflexivity. do 2 f_equal.
      rewrite (En (1 + (1 + zlen d))) by lia.
      replace (1 + (1 + zlen d) - 1) with (1 + zlen d) by lia.
      change (add_bytes (y :: slice (ooff + bs_opos c + 1) (1 + zlen d) o) (b :: b2 :: d))
        with ([u8 (y + b)] ++ add_bytes (slice (ooff + bs_opos c + 1) (1 + zlen d) o) (b2 :: d)).
      rewrite fwrite_at_app by lia. rewrite zlen_cons, (@zlen_nil Z).
      replace (woff + bs_wpos c + (1 + 0)) with (woff + (bs_wpos c + 1)) by lia.
      replace (ooff + (bs_opos c + 1)) with (ooff + bs_opos c + 1) by lia. reflexivity.
  - rewrite slice_past by lia. cbn [bind].
    destruct (Z.leb_spec (ooff + bs_opos c + (1 + zlen d)) (zlen o)); [lia|reflexivity].
Qed.
Lemma extra_run o ooff woff d c f :
  bs_state c = BExtra -> d <> [] -> zlen d <= bs_extra c -> 0 <= woff -> 0 <= bs_wpos c ->
  brun o ooff woff (c, f) d =
  let c1 := mkBs BExtra (bs_ctrl c) (bs_diff c) (bs_extra c - zlen d) (bs_adj c) (bs_opos c) (bs_wpos c + zlen d) in
  do c2 <- (if bs_extra c1 =? 0 then bs_next c1 else Ok c1);
  Ok (c2, fwrite_at f (woff + bs_wpos c) d).
Proof.
  revert c f; induction d as [|b d IH]; intros c f S N L HW HP; [congruence|].
  pose proof (zlen_nonneg d). rewrite zlen_cons in *. cbn [brun].
  unfold bstep, settle. cbn [fst snd]. rewrite S. cbn [bind]. unfold bbyte. rewrite S. cbn [bs_extra].
  destruct d as [|b2 d].
  - rewrite (@zlen_nil Z). change (1 + 0) with 1.
    destruct (bs_extra c - 1 =? 0); cbn [bind brun]; [|reflexivity].
    destruct (bs_next _); cbn [bind brun]; reflexivity.
  - rewrite zlen_cons in *. pose proof (zlen_nonneg d).
    destruct (Z.eqb_spec (bs_extra c - 1) 0); [lia|]. cbn [bind].
    rewrite IH; clear IH; cbn [bs_state bs_diff bs_wpos bs_opos bs_ctrl bs_extra bs_adj]; try lia; try congruence.
    replace (bs_extra c - 1 - (1 + zlen d)) with (bs_extra c - (1 + (1 + zlen d))) by lia.
    replace (bs_wpos c + 1 + (1 + zlen d)) with (bs_wpos c + (1 + (1 + zlen d))) by lia.
    assert (W : fwrite_at f (woff + bs_wpos c) (b :: b2 :: d) =
                fwrite_at (fwrite_at f (woff + bs_wpos c) [b]) (woff + (bs_wpos c + 1)) (b2 :: d)).
    { change (b :: b2 :: d) with ([b] ++ b2 :: d). rewrite fwrite_at_app by lia. rewrite zlen_cons, (@zlen_nil Z).
      f_equal. lia. }
    rewrite W. reflexivity.
Qed.

Definition brank (c : bsctx) : nat :=
  match bs_state c with BRead => 2%nat | BDiff => 1%nat | _ => 0%nat end.
Lemma zdrop_len_lt {A} n (l : list A) : 1 <= n <= zlen l -> (length (zdrop n l) + Z.to_nat n = length l)%nat.
Proof. intros H. unfold zdrop. rewrite skipn_length. unfold zlen in H. lia. Qed.
Lemma bs_eta c : bs_state c = BDiff ->
  mkBs BDiff (bs_ctrl c) (bs_diff c - 0) (bs_extra c) (bs_adj c) (bs_opos c + 0) (bs_wpos c + 0) = c.
Proof. intros S. rewrite Z.sub_0_r, !Z.add_0_r. destruct c; cbn in *; subst; reflexivity. Qed.
Lemma fwrite_at_nil f o : fwrite_at f o [] = f.
Proof. reflexivity. Qed.
Lemma after_diff_rank c c1 : bs_state c = BDiff -> after_diff c = Ok c1 ->
  (brank c1 <= 1)%nat /\ (bs_diff c = 0 -> brank c1 = 0%nat).
Proof.
  intros S. unfold after_diff. destruct (Z.eqb_spec (bs_diff c) 0).
  - destruct (bs_extra c >? 0).
    + intros E. injection E as <-. unfold brank; cbn. lia.
    + unfold bs_next. destruct (in_i64 _); [|discriminate]. intros E. injection E as <-. unfold brank; cbn. lia.
  - intros E. injection E as <-. unfold brank. rewrite S. split; [lia|]. intros H. exfalso. apply n. exact H.
Qed.
Lemma bs_next_rank c c1 : bs_next c = Ok c1 -> brank c1 = 0%nat.
Proof. unfold bs_next. destruct (in_i64 _); [|discriminate]. intros E. injection E as <-. reflexivity. Qed.

Lemma brun_split o ooff woff s n pp :
  brun o ooff woff s pp = (do s1 <- brun o ooff woff s (ztake n pp); brun o ooff woff s1 (zdrop n pp)).
Proof. rewrite <- brun_app, ztake_zdrop. reflexivity. Qed.
Lemma loop_brun o ooff woff blen : 0 < blen -> 0 <= woff -> zlen o < 2^63 ->
  forall fuel c f pp, (3 * length pp + brank c < fuel)%nat -> pp <> [] -> bwf c ->
  bout (bs_loop o ooff woff blen fuel c f pp) = brun o ooff woff (c, f) pp.
Proof.
  intros Hb Hw Ho. induction fuel as [fuel IH] using lt_wf_ind; intros c f pp Hf Hpp W.
  destruct fuel as [|k]; [lia|].
  destruct W as [W1 W2]. cbn [bs_loop].
  assert (P : 1 <= zlen pp) by (destruct pp; [congruence|]; rewrite zlen_cons; pose proof (zlen_nonneg pp); lia).
  assert (LP : zlen pp = Z.of_nat (length pp)) by reflexivity.
  destruct (bs_state c) eqn:S.
  - (* fill *)
    destruct (Z.ltb_spec (zlen (bs_ctrl c)) 24); [|lia]. pose proof (zlen_nonneg (bs_ctrl c)).
    set (n := Z.min (zlen pp) (24 - zlen (bs_ctrl c))). assert (Hn : 1 <= n <= zlen pp) by lia.
    assert (Lt : zlen (ztake n pp) = n) by (rewrite zlen_ztake; lia).
    rewrite zlen_app, Lt.
    destruct (Z.eqb_spec (zlen (bs_ctrl c) + n) 24) as [E|E].
    + rewrite (brun_split o ooff woff (c, f) n pp).
      rewrite fill_full; [|exact S|intros X; rewrite X in Lt; change (zlen (@nil Z)) with 0 in Lt; lia|lia].
      cbn [bind]. destruct k as [|k2]; [lia|]. cbn [bs_loop bs_state bs_ctrl bs_opos bs_wpos].
      fold (read_ctrl c (bs_ctrl c ++ ztake n pp)). pose proof (zdrop_len_lt n pp Hn) as D.
      destruct (Z.gtb_spec (zlen (zdrop n pp)) 0) as [G|G].
      * apply IH; [lia| | |].
        -- unfold brank, read_ctrl. cbn [bs_state]. lia.
        -- intros X; rewrite X in G; change (zlen (@nil Z)) with 0 in G; lia.
        -- unfold bwf, read_ctrl. cbn [bs_state bs_wpos]. auto.
      * pose proof (zlen_nonneg (zdrop n pp)). rewrite (zlen_0_nil (zdrop n pp)) by lia. reflexivity.
    + assert (En : n = zlen pp) by lia. rewrite En, ztake_all by lia.
      rewrite fill_run; [reflexivity | exact S | lia].
  - contradiction.
  - (* diff *)
    set (n := Z.min (Z.min (zlen pp) (bs_diff c)) blen).
    destruct (Z.ltb_spec n 0) as [Hn|Hn].
    { destruct pp as [|b pp]; [congruence|]. cbn [brun bout]. unfold bstep, settle. cbn [fst snd]. rewrite S.
      destruct (Z.eqb_spec (bs_diff c) 0); [lia|]. cbn [bind]. unfold bbyte. rewrite S.
      destruct (Z.ltb_spec (bs_diff c) 0); [reflexivity|lia]. }
    destruct (in_i64 (ooff + bs_opos c)) eqn:I; cbn [negb].
    2:{ destruct pp as [|b pp]; [congruence|]. cbn [brun bout]. unfold bstep, settle. cbn [fst snd]. rewrite S, I. cbn [negb].
        destruct (Z.eqb_spec (bs_diff c) 0); [reflexivity|]. cbn [bind]. unfold bbyte. rewrite S, I. cbn [negb].
        destruct (Z.ltb_spec (bs_diff c) 0); reflexivity. }
    unfold read_origin. destruct (Z.ltb_spec (ooff + bs_opos c) 0) as [Hneg|Hneg].
    { destruct pp as [|b pp]; [congruence|]. cbn [brun bout]. unfold bstep, settle. cbn [fst snd]. rewrite S, I. cbn [negb].
      destruct (Z.ltb_spec (ooff + bs_opos c) 0); [|lia].
      destruct (Z.eqb_spec (bs_diff c) 0); [reflexivity|]. cbn [bind]. unfold bbyte. rewrite S, I. cbn [negb].
      destruct (Z.ltb_spec (ooff + bs_opos c) 0); [|lia].
      destruct (Z.ltb_spec (bs_diff c) 0); [lia|reflexivity]. }
    unfold fread_at. cbn [bs_diff bs_extra bs_ctrl bs_adj bs_opos bs_wpos].
    unfold in_i64 in I.
    destruct (Z.eq_dec (bs_diff c) 0) as [D0|D0].
    { assert (Z0 : n = 0) by lia. rewrite Z0. rewrite slice_neg_len by lia. change (zlen (@nil Z) =? 0) with true. cbv iota.
      cbn [add_bytes]. rewrite fwrite_at_nil, zdrop_0.
      change (if bs_diff c - 0 =? 0 then _ else _) with
        (after_diff (mkBs BDiff (bs_ctrl c) (bs_diff c - 0) (bs_extra c) (bs_adj c) (bs_opos c + 0) (bs_wpos c + 0))).
      rewrite bs_eta by exact S.
      assert (Hs : settle ooff c = after_diff c).
      { unfold settle. rewrite S. destruct (Z.eqb_spec (bs_diff c) 0); [|lia].
        unfold in_i64. replace ((- 2 ^ 63 <=? ooff + bs_opos c) && (ooff + bs_opos c <? 2 ^ 63)) with true by lia.
        cbn [negb]. destruct (Z.ltb_spec (ooff + bs_opos c) 0); [lia|reflexivity]. }
      destruct (after_diff c) as [c2| | |] eqn:A.
      - destruct (Z.gtb_spec (zlen pp) 0); [|lia].
        destruct (after_diff_rank c c2 S A) as [_ R]. specialize (R D0).
        rewrite IH; [|lia| |exact Hpp|eapply after_diff_wf; eauto].
        + apply brun_settle; assumption.
        + unfold brank at 1 in Hf. rewrite S in Hf. rewrite R. lia.
      - destruct (after_diff_kind c) as [[? X]|X]; congruence.
      - cbn [bout]. destruct pp as [|b pp]; [congruence|]. cbn [brun]. unfold bstep. cbn [fst]. rewrite Hs. reflexivity.
      - destruct (after_diff_kind c) as [[? X]|X]; congruence. }
    assert (Hn1 : 1 <= n <= zlen pp) by lia.
    assert (Lt : zlen (ztake n pp) = n) by (rewrite zlen_ztake; lia).
    rewrite (brun_split o ooff woff (c, f) n pp).
    rewrite diff_run; [|exact S|intros X; rewrite X in Lt; change (zlen (@nil Z)) with 0 in Lt; lia|lia|lia|lia|lia|lia].
    rewrite Lt. rewrite zlen_slice.
    destruct (Z.leb_spec (ooff + bs_opos c + n) (zlen o)) as [R|R].
    2:{ destruct (Z.eqb_spec (Z.max 0 (Z.min n (zlen o - Z.max 0 (Z.min (ooff + bs_opos c) (zlen o))))) n); [lia|]. reflexivity. }
    destruct (Z.eqb_spec (Z.max 0 (Z.min n (zlen o - Z.max 0 (Z.min (ooff + bs_opos c) (zlen o))))) n); [|lia].
    change (if bs_diff c - n =? 0 then _ else _) with
        (after_diff (mkBs BDiff (bs_ctrl c) (bs_diff c - n) (bs_extra c) (bs_adj c) (bs_opos c + n) (bs_wpos c + n))).
    match goal with |- context [after_diff ?x] => set (cd := x) end.
    pose proof (zdrop_len_lt n pp Hn1) as D.
    destruct (after_diff cd) as [c2| | |] eqn:A; cbn [bind].
    + destruct (after_diff_rank cd c2 eq_refl A) as [R1 _].
      destruct (Z.gtb_spec (zlen (zdrop n pp)) 0) as [G|G].
      * apply IH; [lia| | |].
        -- lia.
        -- intros X; rewrite X in G; change (zlen (@nil Z)) with 0 in G; lia.
        -- eapply after_diff_wf; [| |exact A]; [reflexivity|]. cbn [cd bs_wpos]. lia.
      * pose proof (zlen_nonneg (zdrop n pp)). rewrite (zlen_0_nil (zdrop n pp)) by lia. reflexivity.
    + destruct (after_diff_kind cd) as [[? X]|X]; congruence.
    + reflexivity.
    + destruct (after_diff_kind cd) as [[? X]|X]; congruence.
  - (* extra *)
    set (n := Z.min (zlen pp) (bs_extra c)). assert (Hn1 : 1 <= n <= zlen pp) by lia.
    assert (Lt : zlen (ztake n pp) = n) by (rewrite zlen_ztake; lia).
    rewrite (brun_split o ooff woff (c, f) n pp).
    rewrite extra_run; [|exact S|intros X; rewrite X in Lt; change (zlen (@nil Z)) with 0 in Lt; lia|lia|lia|lia].
    rewrite Lt. cbv zeta. cbn [bs_extra].
    match goal with |- context [bs_next ?x] => set (ce := x) end.
    pose proof (zdrop_len_lt n pp Hn1) as D.
    destruct (Z.eqb_spec (bs_extra c - n) 0) as [E|E].
    + destruct (bs_next ce) as [c2| | |] eqn:A; cbn [bind].
      * pose proof (bs_next_rank _ _ A).
        destruct (Z.gtb_spec (zlen (zdrop n pp)) 0) as [G|G].
        -- apply IH; [lia|lia| |].
           ++ intros X; rewrite X in G; change (zlen (@nil Z)) with 0 in G; lia.
           ++ eapply bs_next_wf; [|exact A]. cbn [ce bs_wpos]. lia.
        -- pose proof (zlen_nonneg (zdrop n pp)). rewrite (zlen_0_nil (zdrop n pp)) by lia. reflexivity.
      * destruct (bs_next_kind ce) as [(? & X & _)|X]; congruence.
      * reflexivity.
      * destruct (bs_next_kind ce) as [(? & X & _)|X]; congruence.
    + assert (En : n = zlen pp) by lia. cbn [bind]. rewrite (zdrop_all n pp) by lia. reflexivity.
  - (* error *)
    destruct pp as [|b pp]; [congruence|]. cbn [brun bout]. unfold bstep, settle. cbn [fst snd]. rewrite S. cbn [bind].
    unfold bbyte. rewrite S. reflexivity.
Qed.
