(* LzProofs.v -- LZMA-compressed patches *)
From Verif Require Import Base BaseLemmas BspatchModel BspatchSpec BspatchProofs BspatchApply BspatchSafe BsdiffModel BsdiffProofs BsdiffSafe
  HsPatchDec HsPatchFinal LzModel LzSpec.

Lemma w_concat (out : bytes) (r : list bytes) : concat ((if zlen out >? 0 then [out] else []) ++ r) = out ++ concat r.
Proof.
  destruct (Z.gtb_spec (zlen out) 0) as [H|H]; [reflexivity|].
  destruct out as [|x out]; [reflexivity|]. rewrite zlen_cons in H. pose proof (zlen_nonneg out). lia.
Qed.
Lemma zlen_0 (b : bytes) : zlen b <= 0 -> b = [].
Proof. destruct b as [|x b]; [reflexivity|]. rewrite zlen_cons. pose proof (zlen_nonneg b). lia. Qed.
Lemma zlen_pos (b : bytes) : b <> [] -> 0 < zlen b.
Proof. destruct b as [|x b]; [congruence|]. rewrite zlen_cons. pose proof (zlen_nonneg b). lia. Qed.
(* ---- the compressor ---- *)
Section Enc.
Variables (L : lzstream) (stream : bytes -> bytes -> Prop).
Variables running finishing : lz_st L -> bytes -> bytes -> Prop.
Hypothesis Ri : running (lz_init L) [] [].
Hypothesis Rf : forall s X Y, running s X Y -> finishing s X Y.
Hypothesis Rr : forall s X Y b, running s X Y -> bytes_ok b -> b <> [] ->
      exists s1 n out, lz_code L s b 4096 false = (s1, n, out, LzOk) /\
        0 <= n <= zlen b /\ bytes_ok out /\ running s1 (X ++ ztake n b) (Y ++ out) /\
        (lz_calls L s1 (zlen b - n) false < lz_calls L s (zlen b) false)%nat.
Hypothesis Rn : forall s X Y, finishing s X Y ->
      exists s1 n out r, lz_code L s [] 4096 true = (s1, n, out, r) /\ bytes_ok out /\
        match r with
        | LzOk => finishing s1 X (Y ++ out) /\ (lz_calls L s1 0 true < lz_calls L s 0 true)%nat
        | LzEnd => stream X (Y ++ out)
        | LzErr => False
        end.
Lemma lzc_loop_ok fuel : forall s X Y b, running s X Y -> bytes_ok b -> (lz_calls L s (zlen b) false < fuel)%nat ->
  exists s1 w, lzc_loop L fuel s b = Ok (s1, w) /\ running s1 (X ++ b) (Y ++ concat w) /\ bytes_ok (concat w).
Proof using All.
  induction fuel as [|fuel IH]; intros s X Y b R B F; [lia|]. cbn [lzc_loop].
  destruct (Z.gtb_spec (zlen b) 0) as [H|H].
  - assert (N : b <> []) by (intros ->; cbn in H; lia).
    destruct (Rr s X Y b R B N) as (s1 & n & out & E & Hn & Bo & R1 & C). rewrite E.
    destruct (IH s1 (X ++ ztake n b) (Y ++ out) (zdrop n b) R1 (bytes_ok_zdrop n b B)) as (s2 & w & E2 & R2 & B2).
    { rewrite zlen_zdrop. replace (zlen b - Z.max 0 (Z.min n (zlen b))) with (zlen b - n) by lia. lia. }
    rewrite E2. cbn [bind]. eexists s2, _. split; [reflexivity|]. rewrite w_concat. rewrite <- app_assoc, ztake_zdrop in R2.
    rewrite app_assoc. split; [exact R2|]. apply bytes_ok_app. auto.
  - rewrite (zlen_0 b) by lia. exists s, []. cbn [concat]. rewrite !app_nil_r. split; [reflexivity|]. split; [exact R|constructor].
Qed.
Lemma lzc_writes_ok l : forall s X Y, running s X Y -> Forall bytes_ok l ->
  exists s1 w, lzc_writes L s l = Ok (s1, w) /\ running s1 (X ++ concat l) (Y ++ concat w) /\ bytes_ok (concat w).
Proof using All.
  induction l as [|b l IH]; intros s X Y R F; cbn [lzc_writes concat].
  - exists s, []. cbn [concat]. rewrite !app_nil_r. split; [reflexivity|]. split; [exact R|constructor].
  - apply Forall_cons_iff in F as [F1 F2]. unfold lzc_write.
    destruct (lzc_loop_ok _ s X Y b R F1 (Nat.lt_succ_diag_r _)) as (s1 & w & E & R1 & B1). rewrite E. cbn [bind].
    destruct (IH s1 _ _ R1 F2) as (s2 & w2 & E2 & R2 & B2). rewrite E2. cbn [bind]. exists s2, (w ++ w2).
    split; [reflexivity|]. rewrite concat_app, !app_assoc. split; [exact R2|]. apply bytes_ok_app. auto.
Qed.
Lemma lzc_final_ok fuel : forall s X Y, finishing s X Y -> (lz_calls L s 0 true < fuel)%nat ->
  exists w, lzc_final_loop L fuel s = Ok w /\ stream X (Y ++ concat w) /\ bytes_ok (concat w).
Proof using All.
  induction fuel as [|fuel IH]; intros s X Y R F; [lia|]. cbn [lzc_final_loop].
  destruct (Rn s X Y R) as (s1 & n & out & r & E & Bo & K). rewrite E. destruct r.
  - destruct K as [K C]. destruct (IH s1 X (Y ++ out) K ltac:(lia)) as (w & E2 & S2 & B2). rewrite E2. cbn [bind].
    eexists. split; [reflexivity|]. rewrite w_concat, app_assoc. split; [exact S2|]. apply bytes_ok_app. auto.
  - eexists. split; [reflexivity|]. rewrite <- (app_nil_r (if zlen out >? 0 then [out] else [])), w_concat. cbn [concat]. rewrite app_nil_r. auto.
  - contradiction.
Qed.
End Enc.
Lemma lzc_ok L stream l : lz_encodes L stream -> Forall bytes_ok l ->
  exists s w w2, lzc_writes L (lz_init L) l = Ok (s, w) /\ lzc_final L s = Ok w2 /\
    stream (concat l) (concat (w ++ w2)) /\ bytes_ok (concat (w ++ w2)).
Proof.
  intros (running & finishing & Ri & Rf & Rr & Rn) F.
  destruct (lzc_writes_ok L stream running finishing Ri Rf Rr Rn l (lz_init L) [] [] Ri F) as (s & w & E & R & B).
  destruct (lzc_final_ok L stream running finishing Ri Rf Rr Rn _ s _ _ (Rf _ _ _ R) (Nat.lt_succ_diag_r _)) as (w2 & E2 & S2 & B2).
  exists s, w, w2. rewrite concat_app. cbn [app] in S2. split; [exact E|]. split; [exact E2|]. split; [exact S2|]. apply bytes_ok_app. auto.
Qed.

(* ---- the decompressor, without the patch it feeds ---- *)
Section Pull.
Variable L : lzstream.
Fixpoint lz_pull (fuel : nat) (fin : bool) (s : lz_st L) (b : bytes) : list bytes * lz_st L * res unit :=
  if (zlen b >? 0) || fin then
    match fuel with
    | O => ([], s, Stuck)
    | S k =>
        let '(s1, n, out, r) := lz_code L s b 8192 fin in
        let w := if zlen out >? 0 then [out] else [] in
        match r with
        | LzOk => let '(l, s2, x) := lz_pull k fin s1 (zdrop n b) in (w ++ l, s2, x)
        | LzEnd => (w, s1, Ok tt)
        | LzErr => (w, s1, Err E_DECOMPRESSOR_ERROR)
        end
    end
  else ([], s, Ok tt).
Definition lz_pull1 (s : lz_st L) (b : bytes) : list bytes * lz_st L * res unit :=
  let fin := zlen b =? 0 in lz_pull (S (lz_calls L s (zlen b) fin)) fin s b.
Fixpoint lz_pulls (s : lz_st L) (l : list bytes) : list bytes * lz_st L * res unit :=
  match l with
  | [] => ([], s, Ok tt)
  | b :: r =>
      match lz_pull1 s b with
      | (w, s1, Ok _) => let '(w2, s2, x) := lz_pulls s1 r in (w ++ w2, s2, x)
      | y => y
      end
  end.
(* [x] is what the buffers of [y] do to a patch in progress *)
Definition lz_behaves o ooff woff blen (c : bsctx) (f : bytes) (y : list bytes * lz_st L * res unit) (x : lzpctx L * bytes * res unit) : Prop :=
  let '(outs, s1, r) := y in
  let '(h1, f1, e) := x in
  match bspatch_chunks o ooff woff blen c f outs with
  | (c2, f2, Ok _) => lp_bs L h1 = c2 /\ f1 = f2 /\ e = r /\ (r = Ok tt -> lp_s L h1 = s1)
  | (c2, f2, q) => lp_bs L h1 = c2 /\ f1 = f2 /\ e = q
  end.
Lemma bspatch_w o ooff woff blen c f (out : bytes) : bspatch_chunks o ooff woff blen c f (if zlen out >? 0 then [out] else []) =
  if zlen out >? 0 then bspatch_write o ooff woff blen c f out else (c, f, Ok tt).
Proof.
  destruct (zlen out >? 0); cbn [bspatch_chunks]; [|reflexivity].
  destruct (bspatch_write o ooff woff blen c f out) as [[c1 f1] [[]| | |]]; reflexivity.
Qed.
Lemma lzp_loop_pull o ooff woff blen fuel : forall fin c s f b,
  lz_behaves o ooff woff blen c f (lz_pull fuel fin s b) (lzp_loop L o ooff woff blen fuel fin (mkLp L c s) f b).
Proof.
  induction fuel as [|fuel IH]; intros fin c s f b; cbn [lz_pull lzp_loop lp_bs lp_s];
    destruct ((zlen b >? 0) || fin); try (cbn; auto; fail).
  destruct (lz_code L s b 8192 fin) as [[[s1 n] out] r].
  destruct r.
  - specialize (IH fin). destruct (lz_pull fuel fin s1 (zdrop n b)) as [[l s2] x] eqn:El. unfold lz_behaves.
    rewrite bspatch_chunks_app, bspatch_w.
    destruct (if zlen out >? 0 then _ else _) as [[c1 f1] [[]| | |]]; cbn [lp_bs]; auto.
    specialize (IH c1 s1 f1 (zdrop n b)). rewrite El in IH. exact IH.
  - unfold lz_behaves. rewrite bspatch_w.
    destruct (if zlen out >? 0 then _ else _) as [[c1 f1] [[]| | |]]; cbn [lp_bs lp_s]; auto.
  - unfold lz_behaves. rewrite bspatch_w.
    destruct (if zlen out >? 0 then _ else _) as [[c1 f1] [[]| | |]]; cbn [lp_bs lp_s]; auto.
Qed.
Lemma lzp_chunks_pull o ooff woff blen l : forall c s f,
  lz_behaves o ooff woff blen c f (lz_pulls s l) (lzp_chunks L o ooff woff blen (mkLp L c s) f l).
Proof.
  induction l as [|b l IH]; intros c s f; cbn [lz_pulls lzp_chunks]; [cbn; auto|].
  pose proof (lzp_loop_pull o ooff woff blen (S (lz_calls L s (zlen b) (zlen b =? 0))) (zlen b =? 0) c s f b) as Q.
  unfold lzp_write, lz_pull1. cbn [lp_s]. unfold lz_behaves in Q.
  destruct (lz_pull _ _ s b) as [[w s1] r].
  destruct (lzp_loop L o ooff woff blen _ _ (mkLp L c s) f b) as [[h1 f1] e].
  destruct (bspatch_chunks o ooff woff blen c f w) as [[c2 f2] q] eqn:Ew.
  destruct q as [[]| | |].
  - destruct Q as (Q1 & Q2 & Q3 & Q4). subst f2 e. destruct r as [[]| | |].
    + specialize (Q4 eq_refl). specialize (IH c2 s1 f1). replace (mkLp L c2 s1) with h1 in IH by (destruct h1; cbn in *; congruence).
      destruct (lz_pulls s1 l) as [[w2 s2] x]. unfold lz_behaves in *. rewrite bspatch_chunks_app, Ew. exact IH.
    + unfold lz_behaves. rewrite Ew. repeat split; auto; discriminate.
    + unfold lz_behaves. rewrite Ew. repeat split; auto; discriminate.
    + unfold lz_behaves. rewrite Ew. repeat split; auto; discriminate.
  - destruct Q as (Q1 & Q2 & Q3). subst f2 e. destruct r as [[]| | |].
    + destruct (lz_pulls s1 l) as [[w2 s2] x]. unfold lz_behaves. rewrite bspatch_chunks_app, Ew. auto.
    + unfold lz_behaves. rewrite Ew. auto.
    + unfold lz_behaves. rewrite Ew. auto.
    + unfold lz_behaves. rewrite Ew. auto.
  - destruct Q as (Q1 & Q2 & Q3). subst f2 e. destruct r as [[]| | |].
    + destruct (lz_pulls s1 l) as [[w2 s2] x]. unfold lz_behaves. rewrite bspatch_chunks_app, Ew. auto.
    + unfold lz_behaves. rewrite Ew. auto.
    + unfold lz_behaves. rewrite Ew. auto.
    + unfold lz_behaves. rewrite Ew. auto.
  - destruct Q as (Q1 & Q2 & Q3). subst f2 e. destruct r as [[]| | |].
    + destruct (lz_pulls s1 l) as [[w2 s2] x]. unfold lz_behaves. rewrite bspatch_chunks_app, Ew. auto.
    + unfold lz_behaves. rewrite Ew. auto.
    + unfold lz_behaves. rewrite Ew. auto.
    + unfold lz_behaves. rewrite Ew. auto.
Qed.
(* the final call is an empty chunk *)
Lemma lz_pulls_app l m : forall s, lz_pulls s (l ++ m) =
  match lz_pulls s l with (w, s1, Ok _) => let '(w2, s2, x) := lz_pulls s1 m in (w ++ w2, s2, x) | y => y end.
Proof.
  induction l as [|b l IH]; intros s; cbn [lz_pulls app].
  - destruct (lz_pulls s m) as [[w s1] x]. reflexivity.
  - destruct (lz_pull1 s b) as [[w s1] [[]| | |]]; try reflexivity. rewrite IH.
    destruct (lz_pulls s1 l) as [[w2 s2] [[]| | |]]; try reflexivity.
    destruct (lz_pulls s2 m) as [[w3 s3] x]. rewrite app_assoc. reflexivity.
Qed.
Lemma lzp_chunks_app o ooff woff blen l m : forall h f, lzp_chunks L o ooff woff blen h f (l ++ m) =
  match lzp_chunks L o ooff woff blen h f l with (h1, f1, Ok _) => lzp_chunks L o ooff woff blen h1 f1 m | y => y end.
Proof.
  induction l as [|b l IH]; intros h f; cbn [lzp_chunks app]; [reflexivity|].
  destruct (lzp_write L o ooff woff blen h f b) as [[h1 f1] [[]| | |]]; try reflexivity. apply IH.
Qed.
End Pull.

Lemma loop_ok_state o ooff woff blen fuel : forall c f pp c1 f1,
  bs_loop o ooff woff blen fuel c f pp = (c1, f1, Ok tt) -> bs_state c1 <> BError.
Proof.
  induction fuel as [|k IH]; intros c f pp c1 f1; cbn [bs_loop]; [discriminate|].
  destruct (bs_state c) eqn:S.
  - destruct (_ <? 24); [|intros E; injection E as <- <-; congruence].
    destruct (_ =? 24); [|intros E; injection E as <- <-; cbn; congruence]. apply IH.
  - destruct (_ >? 0); [apply IH|intros E; injection E as <- <-; cbn; congruence].
  - destruct (_ <? 0); [discriminate|]. destruct (negb _); [discriminate|].
    destruct (read_origin _ _ _) as [b|e2| |]; try discriminate.
    destruct (zlen b =? _); [|discriminate]. cbn [bs_diff bs_extra].
    destruct (_ - _ =? 0).
    + destruct (_ >? 0).
      * destruct (_ >? 0); [apply IH|intros E; injection E as <- <-; cbn; congruence].
      * unfold bs_next. cbn [bs_opos bs_adj]. destruct (in_i64 (_ + _)); [|discriminate].
        destruct (_ >? 0); [apply IH|intros E; injection E as <- <-; cbn; congruence].
    + destruct (_ >? 0); [apply IH|intros E; injection E as <- <-; cbn; congruence].
  - cbn [bs_extra]. destruct (_ - _ =? 0); [|intros E; injection E as <- <-; cbn; congruence].
    unfold bs_next. cbn [bs_opos bs_adj]. destruct (in_i64 (_ + _)); [|discriminate].
    destruct (_ >? 0); [apply IH|intros E; injection E as <- <-; cbn; congruence].
  - discriminate.
Qed.
Lemma chunks_ok_state o ooff woff blen l : forall c f c1 f1,
  bs_state c <> BError -> bspatch_chunks o ooff woff blen c f l = (c1, f1, Ok tt) -> bs_state c1 <> BError.
Proof.
  induction l as [|b l IH]; intros c f c1 f1 H E; cbn [bspatch_chunks] in E; [injection E as <- <-; exact H|].
  destruct (bspatch_write o ooff woff blen c f b) as [[c2 f2] [[]| | |]] eqn:W; try discriminate.
  unfold bspatch_write in W. apply loop_ok_state in W. eapply IH; eauto.
Qed.
Section All.
Variable L : lzstream.
Definition as_z (r : res unit) (n : Z) : res Z := match r with Ok _ => Ok n | Err e => Err e | UB => UB | Stuck => Stuck end.
Lemma lzp_all_chunks o ooff woff blen f (l : list bytes) :
  lzp_all L o ooff woff blen f l =
  match lzp_chunks L o ooff woff blen (lzp_init L) f (l ++ [[] : bytes]) with (h, f1, r) => (f1, as_z r (bs_wpos (lp_bs L h))) end.
Proof.
  unfold lzp_all. rewrite lzp_chunks_app. pose proof (lzp_chunks_pull L o ooff woff blen l bs_init (lz_init L) f) as Q.
  change (mkLp L bs_init (lz_init L)) with (lzp_init L) in Q.
  destruct (lzp_chunks L o ooff woff blen (lzp_init L) f l) as [[h f1] [[]|e| |]]; try reflexivity.
  unfold lz_behaves in Q. destruct (lz_pulls L (lz_init L) l) as [[outs s1] r].
  destruct (bspatch_chunks o ooff woff blen bs_init f outs) as [[c2 f2] [[]|e| |]] eqn:E; [| destruct Q as (_ & _ & Q); discriminate Q ..].
  destruct Q as (Q & _). unfold lzp_final. apply chunks_ok_state in E; [|discriminate]. rewrite Q. cbn [lzp_chunks].
  assert (S0 : forall A (x y : A), match bs_state c2 with BError => x | _ => y end = y) by (intros; destruct (bs_state c2); congruence).
  rewrite S0. destruct (lzp_write L o ooff woff blen h f1 []) as [[h2 f3] [[]|e| |]]; reflexivity.
Qed.
(* any chunks at all, given a decoder that progresses: the effect of some
   uncompressed buffers, which do not depend on the origin or the output *)
Lemma lzp_all_pull (l : list bytes) : let '(outs, s1, r) := lz_pulls L (lz_init L) (l ++ [[] : bytes]) in
  forall o ooff woff blen f,
  lzp_all L o ooff woff blen f l =
  match bspatch_chunks o ooff woff blen bs_init f outs with
  | (c2, f2, Ok _) => (f2, as_z r (bs_wpos c2))
  | (c2, f2, q) => (f2, as_z q 0)
  end.
Proof.
  destruct (lz_pulls L (lz_init L) (l ++ [[] : bytes])) as [[outs s1] r] eqn:El. intros o ooff woff blen f.
  rewrite lzp_all_chunks. pose proof (lzp_chunks_pull L o ooff woff blen (l ++ [[] : bytes]) bs_init (lz_init L) f) as Q. rewrite El in Q.
  change (mkLp L bs_init (lz_init L)) with (lzp_init L) in Q. unfold lz_behaves in Q.
  destruct (lzp_chunks L o ooff woff blen (lzp_init L) f (l ++ [[] : bytes])) as [[h f1] e].
  destruct (bspatch_chunks o ooff woff blen bs_init f outs) as [[c2 f2] [[]|q| |]].
  - destruct Q as (Q1 & Q2 & Q3 & _). subst. reflexivity.
  - destruct Q as (Q1 & Q2 & Q3). subst. reflexivity.
  - destruct Q as (Q1 & Q2 & Q3). subst. reflexivity.
  - destruct Q as (Q1 & Q2 & Q3). subst. reflexivity.
Qed.
(* ---- a decoder that progresses ---- *)
Section Progress.
Hypothesis P : lz_progresses L.
Lemma lz_pull_ends fuel : forall fin s b, (lz_calls L s (zlen b) fin < fuel)%nat ->
  let '(_, _, r) := lz_pull L fuel fin s b in r = Ok tt \/ r = Err E_DECOMPRESSOR_ERROR.
Proof.
  induction fuel as [|fuel IH]; intros fin s b F; [lia|]. cbn [lz_pull].
  destruct ((zlen b >? 0) || fin) eqn:T; [|auto].
  destruct (lz_code L s b 8192 fin) as [[[s1 n] out] r] eqn:E. destruct r; [|auto|auto].
  assert (K : b <> [] \/ fin = true).
  { apply orb_true_iff in T as [T|T]; [left|right; exact T]. intros ->. cbn in T. discriminate. }
  destruct (P s b fin s1 n out K E) as [Hn C].
  specialize (IH fin s1 (zdrop n b)). rewrite zlen_zdrop in IH. replace (zlen b - Z.max 0 (Z.min n (zlen b))) with (zlen b - n) in IH by lia.
  specialize (IH ltac:(lia)). destruct (lz_pull L fuel fin s1 (zdrop n b)) as [[l s2] x]. exact IH.
Qed.
Lemma lz_pulls_ends l : forall s, let '(_, _, r) := lz_pulls L s l in r = Ok tt \/ r = Err E_DECOMPRESSOR_ERROR.
Proof.
  induction l as [|b l IH]; intros s; cbn [lz_pulls]; [auto|].
  pose proof (lz_pull_ends (S (lz_calls L s (zlen b) (zlen b =? 0))) (zlen b =? 0) s b (Nat.lt_succ_diag_r _)) as Q.
  fold (lz_pull1 L s b) in Q. destruct (lz_pull1 L s b) as [[w s1] r]. destruct Q as [-> | ->]; [|auto].
  specialize (IH s1). destruct (lz_pulls L s1 l) as [[w2 s2] x]. exact IH.
Qed.
End Progress.
(* ---- a decoder given a stream ---- *)
Section Stream.
Variables (X Y : bytes).
Variables running finishing : lz_st L -> bytes -> bytes -> Prop.
Hypothesis Ri : running (lz_init L) [] [].
Hypothesis Rf : forall s C O, running s C O -> finishing s C O.
Hypothesis Rr : forall s C O b rest, running s C O -> b <> [] -> Y = C ++ b ++ rest ->
      exists s1 n out, lz_code L s b 8192 false = (s1, n, out, LzOk) /\
        0 <= n <= zlen b /\ running s1 (C ++ ztake n b) (O ++ out) /\ (exists x, X = O ++ out ++ x) /\
        (lz_calls L s1 (zlen b - n) false < lz_calls L s (zlen b) false)%nat.
Hypothesis Rn : forall s C O rest, finishing s C O -> Y = C ++ rest ->
      exists s1 n out r, lz_code L s [] 8192 true = (s1, n, out, r) /\ (exists x, X = O ++ out ++ x) /\
        match r with
        | LzOk => finishing s1 C (O ++ out) /\ (lz_calls L s1 0 true < lz_calls L s 0 true)%nat
        | LzEnd => rest = [] /\ X = O ++ out
        | LzErr => rest <> []
        end.
Lemma pull_run fuel : forall s C O b rest, running s C O -> Y = C ++ b ++ rest -> (exists x, X = O ++ x) ->
  (lz_calls L s (zlen b) false < fuel)%nat ->
  exists outs s1, lz_pull L fuel false s b = (outs, s1, Ok tt) /\ running s1 (C ++ b) (O ++ concat outs) /\
    (exists x, X = O ++ concat outs ++ x).
Proof using All.
  induction fuel as [|fuel IH]; intros s C O b rest R E Xp F; [lia|]. cbn [lz_pull]. rewrite orb_false_r.
  destruct (Z.gtb_spec (zlen b) 0) as [H|H].
  - assert (N : b <> []) by (intros ->; cbn in H; lia).
    destruct (Rr s C O b rest R N E) as (s1 & n & out & Ec & Hn & R1 & Xo & K). rewrite Ec.
    destruct (IH s1 (C ++ ztake n b) (O ++ out) (zdrop n b) rest R1) as (outs & s2 & E2 & R2 & X2).
    { rewrite <- app_assoc, (app_assoc (ztake n b)), ztake_zdrop. exact E. }
    { destruct Xo as [x Xo]. exists x. rewrite <- app_assoc. exact Xo. }
    { rewrite zlen_zdrop. replace (zlen b - Z.max 0 (Z.min n (zlen b))) with (zlen b - n) by lia. lia. }
    rewrite E2. eexists _, s2. split; [reflexivity|]. rewrite w_concat. rewrite <- app_assoc, ztake_zdrop in R2.
    rewrite app_assoc. split; [exact R2|]. destruct X2 as [x X2]. exists x. rewrite X2, <- !app_assoc. reflexivity.
  - rewrite (zlen_0 b) by lia. exists [], s. cbn [concat]. rewrite !app_nil_r. split; [reflexivity|]. split; [exact R|]. exact Xp.
Qed.
Lemma pull_finish fuel : forall s C O rest, finishing s C O -> Y = C ++ rest -> (lz_calls L s 0 true < fuel)%nat ->
  exists outs s1 r, lz_pull L fuel true s [] = (outs, s1, r) /\ (exists x, X = O ++ concat outs ++ x) /\
    (rest = [] -> r = Ok tt /\ X = O ++ concat outs) /\ (rest <> [] -> r = Err E_DECOMPRESSOR_ERROR).
Proof using All.
  induction fuel as [|fuel IH]; intros s C O rest R E F; [lia|]. cbn [lz_pull]. rewrite orb_true_r.
  destruct (Rn s C O rest R E) as (s1 & n & out & r & Ec & Xo & K). rewrite Ec. destruct r.
  - destruct K as [R1 K]. destruct (IH s1 C (O ++ out) rest R1 E ltac:(lia)) as (outs & s2 & r & E2 & X2 & K1 & K2).
    replace (zdrop n (@nil Z)) with (@nil Z) by (unfold zdrop; rewrite skipn_nil; reflexivity). rewrite E2.
    eexists _, s2, r. split; [reflexivity|]. rewrite w_concat. split; [|split; [|exact K2]].
    + destruct X2 as [x X2]. exists x. rewrite X2, <- !app_assoc. reflexivity.
    + intros N. destruct (K1 N) as [K1a K1b]. split; [exact K1a|]. rewrite app_assoc. exact K1b.
  - destruct K as [K1 K2]. eexists _, s1, _. split; [reflexivity|]. rewrite <- (app_nil_r (if zlen out >? 0 then [out] else [])), w_concat.
    cbn [concat]. rewrite app_nil_r. split; [exact Xo|]. split; [auto|congruence].
  - eexists _, s1, _. split; [reflexivity|]. rewrite <- (app_nil_r (if zlen out >? 0 then [out] else [])), w_concat.
    cbn [concat]. rewrite app_nil_r. split; [exact Xo|]. split; [congruence|auto].
Qed.
Lemma pulls_run l : forall s C O rest, running s C O -> Forall (fun b : bytes => b <> []) l -> Y = C ++ concat l ++ rest -> (exists x, X = O ++ x) ->
  exists outs s1, lz_pulls L s l = (outs, s1, Ok tt) /\ running s1 (C ++ concat l) (O ++ concat outs) /\ (exists x, X = O ++ concat outs ++ x).
Proof using All.
  induction l as [|b l IH]; intros s C O rest R F E Xp; cbn [lz_pulls concat] in *.
  - exists [], s. cbn [concat]. rewrite !app_nil_r. auto.
  - apply Forall_cons_iff in F as [F1 F2]. unfold lz_pull1. pose proof (zlen_pos b F1). destruct (Z.eqb_spec (zlen b) 0); [lia|].
    rewrite <- app_assoc in E.
    destruct (pull_run _ s C O b (concat l ++ rest) R E Xp (Nat.lt_succ_diag_r _)) as (outs & s1 & E1 & R1 & X1). rewrite E1.
    destruct (IH s1 (C ++ b) (O ++ concat outs) rest R1 F2) as (outs2 & s2 & E2 & R2 & X2).
    { rewrite <- app_assoc. exact E. }
    { destruct X1 as [x X1]. exists x. rewrite <- app_assoc. exact X1. }
    rewrite E2. exists (outs ++ outs2), s2. split; [reflexivity|]. rewrite concat_app, !app_assoc. split; [exact R2|].
    destruct X2 as [x X2]. exists x. rewrite X2, <- !app_assoc. reflexivity.
Qed.
Lemma pulls_stream (l : list bytes) rest : Forall (fun b : bytes => b <> []) l -> Y = concat l ++ rest ->
  exists outs s1 r, lz_pulls L (lz_init L) (l ++ [[] : bytes]) = (outs, s1, r) /\ (exists x, X = concat outs ++ x) /\
    (rest = [] -> r = Ok tt /\ X = concat outs) /\ (rest <> [] -> r = Err E_DECOMPRESSOR_ERROR).
Proof using All.
  intros F E. destruct (pulls_run l (lz_init L) [] [] rest Ri F E (ex_intro _ X eq_refl)) as (outs & s1 & E1 & R1 & X1).
  cbn [app] in *. rewrite lz_pulls_app, E1. cbn [lz_pulls]. unfold lz_pull1. change (zlen (@nil Z) =? 0) with true. cbn zeta iota.
  destruct (pull_finish _ s1 (concat l) (concat outs) rest (Rf _ _ _ R1) E (Nat.lt_succ_diag_r _)) as (outs2 & s2 & r & E2 & X2 & K1 & K2).
  change (zlen (@nil Z)) with 0. rewrite E2.
  assert (Q : concat (outs ++ outs2) = concat outs ++ concat outs2) by apply concat_app.
  assert (X3 : exists x, X = concat (outs ++ outs2) ++ x) by (rewrite Q; destruct X2 as [x X2]; exists x; rewrite <- app_assoc; exact X2).
  assert (K3 : rest = [] -> r = Ok tt /\ X = concat (outs ++ outs2)) by (rewrite Q; exact K1).
  destruct r as [[]|e| |].
  - exists (outs ++ outs2 ++ []), s2, (Ok tt). rewrite app_nil_r. auto.
  - exists (outs ++ outs2), s2, (Err e). auto.
  - exists (outs ++ outs2), s2, UB. auto.
  - exists (outs ++ outs2), s2, Stuck. auto.
Qed.
End Stream.
End All.
Lemma pulls_decodes L stream X Y l rest : lz_decodes L stream -> stream X Y -> Forall (fun b : bytes => b <> []) l -> Y = concat l ++ rest ->
  exists outs s1 r, lz_pulls L (lz_init L) (l ++ [[] : bytes]) = (outs, s1, r) /\ (exists x, X = concat outs ++ x) /\
    (rest = [] -> r = Ok tt /\ X = concat outs) /\ (rest <> [] -> r = Err E_DECOMPRESSOR_ERROR).
Proof.
  intros D S F E. destruct (D X Y S) as (running & finishing & Ri & Rf & Rr & Rn).
  exact (pulls_stream L X Y running finishing Ri Rf Rr Rn l rest F E).
Qed.
