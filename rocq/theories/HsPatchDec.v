(* HsPatchDec.v -- applying a heatshrink-compressed patch is applying the
   decompressed one, in some chunking *)
From Verif Require Import Base BaseLemmas BspatchModel BsdiffModel HsSpec HsBits HsModel HsDecoder HsDecApi HsPatchModel.
From Coq Require Import Lia.

(* ---- how much output is still to come ---- *)
Lemma tokens_size ts l : Forall token_ok ts -> zlen (expand (tokens (tbits ts ++ l))) <= zlen (expand ts) + 8 * zlen l.
Proof.
  intros Ht. unfold tbits. rewrite tokens_app by exact Ht.
  pose proof (hist_size (tokens l) (tokens_ok l) (hist ts)) as H.
  replace (fold_left expand1 (tokens l) (hist ts)) with (hist (ts ++ tokens l)) in H by (unfold hist; rewrite fold_left_app; reflexivity).
  rewrite !hist_expand, !zlen_app in H.
  destruct (parse_bits (length l) l) as [r E]. fold (tokens l) in E.
  assert (L : zlen (tbits (tokens l)) <= zlen l).
  { apply (f_equal (@length bool)) in E. rewrite app_length in E. unfold zlen. lia. }
  lia.
Qed.
Lemma dinv_remaining d S O P : dinv d S O P -> 0 <= zlen (hs_decode S) - zlen O <= 17000.
Proof.
  intros I. split.
  { destruct (dinv_prefix _ _ _ _ I) as [x ->]. rewrite zlen_app. pose proof (zlen_nonneg x). lia. }
  assert (LP : zlen P <= 2055).
  { destruct I as (R & _). destruct R as (RI & R1 & R2 & k & Hk & Hb & ->). unfold zlen. rewrite app_length, to_bits_length, bits_of_length.
    assert (Q : zlen (slice (d_iidx d) (d_isz d - d_iidx d) (d_in d)) <= 256) by (rewrite zlen_slice; lia).
    unfold zlen in Q. lia. }
  destruct I as (R & W & ts & Ht & I). rewrite hs_decode_tokens. destruct (d_st d) eqn:St.
  - destruct I as [-> ->]. pose proof (tokens_size ts P Ht). lia.
  - destruct I as [-> ->]. pose proof (tokens_size ts (true :: P) Ht). rewrite zlen_cons in *. lia.
  - destruct I as [-> [-> _]]. pose proof (tokens_size ts (false :: P) Ht). rewrite zlen_cons in *. lia.
  - destruct I as [-> [-> _]]. pose proof (tokens_size ts (false :: to_bits 8 (d_oidx d - 1) ++ P) Ht) as Q. rewrite zlen_cons, zlen_app in Q.
    assert (zlen (to_bits 8 (d_oidx d - 1)) = 8) by (unfold zlen; rewrite to_bits_length; reflexivity). lia.
  - destruct I as (n & TO & -> & I2 & I3).
    assert (Ht2 : Forall token_ok (ts ++ [Ref (d_oidx d) n])) by (apply Forall_app; split; [exact Ht|]; constructor; [exact TO|constructor]).
    pose proof (tokens_size _ P Ht2) as Q.
    apply (f_equal (@length Z)) in I3. rewrite repeat_back_length, hist_expand, !app_length in I3.
    destruct TO. unfold zlen in *. lia.
Qed.
Lemma waiting_finish d S O P : dinv d S O P -> waiting d P -> d_finish d = false.
Proof.
  intros I W. pose proof (waiting_empty _ _ _ _ I W) as Z0. unfold d_finish. rewrite Z0. unfold waiting in W.
  destruct (d_st d); try reflexivity. contradiction.
Qed.

Lemma bspatch_chunks_app o ooff woff blen a : forall c f b,
  bspatch_chunks o ooff woff blen c f (a ++ b) =
  match bspatch_chunks o ooff woff blen c f a with
  | (c1, f1, Ok _) => bspatch_chunks o ooff woff blen c1 f1 b
  | x => x
  end.
Proof.
  induction a as [|x a IH]; intros c f b; cbn [bspatch_chunks app]; [reflexivity|].
  destruct (bspatch_write o ooff woff blen c f x) as [[c1 f1] [[]| | |]]; try reflexivity. apply IH.
Qed.
Section Dec.
Variables (o : bytes) (ooff woff blen ilen : Z).
Hypothesis Hb : 0 < blen.
(* [x], with decompressor [h1] where it succeeded, is what the buffers [outs] do *)
Definition behaves (c : bsctx) (f : bytes) (outs : list bytes) (d1 : hsd) (ip : Z) (x : hspctx * bytes * res unit) : Prop :=
  let '(h1, f1, r) := x in
  bspatch_chunks o ooff woff blen c f outs = (hp_bs h1, f1, r) /\ (r = Ok tt -> hp_d h1 = d1 /\ hp_ipos h1 = ip).
Lemma hsp_poll_ok fuel : forall h S O P, dinv (hp_d h) S O P -> zlen (hs_decode S) - zlen O < Z.of_nat fuel ->
  exists outs d1 P1, dinv d1 S (O ++ concat outs) P1 /\ waiting d1 P1 /\
    forall c f, behaves c f outs d1 (hp_ipos h) (hsp_poll o ooff woff blen ilen fuel (mkHp c (hp_d h) (hp_ipos h)) f).
Proof.
  induction fuel as [|fuel IH]; intros h S O P I F; [pose proof (dinv_remaining _ _ _ _ I); lia|].
  destruct (d_poll_ok blen (hp_d h) S O P I ltac:(lia)) as (d1 & out & P1 & more & E & I1 & L & M & W).
  destruct more.
  - symmetry in M. apply Z.eqb_eq in M.
    destruct (IH (mkHp (hp_bs h) d1 (hp_ipos h)) S (O ++ out) P1 I1) as (outs & d2 & P2 & I2 & W2 & B); [rewrite zlen_app; lia|].
    exists (out :: outs), d2, P2. cbn [concat]. rewrite app_assoc. split; [exact I2|]. split; [exact W2|]. intros c f.
    cbn [hsp_poll hp_d hp_bs hp_ipos] in *. rewrite E. cbn [orb]. specialize (B). unfold behaves in *. cbn [bspatch_chunks].
    destruct (bspatch_write o ooff woff blen c f out) as [[c1 f1] [[]| | |]]; cbn [hp_bs hp_d hp_ipos]; try (split; [reflexivity|discriminate]).
    apply B.
  - exists [out], d1, P1. cbn [concat]. rewrite app_nil_r. specialize (W eq_refl). split; [exact I1|]. split; [exact W|]. intros c f.
    cbn [hsp_poll hp_d hp_bs hp_ipos]. rewrite E. rewrite (waiting_finish _ _ _ _ I1 W), andb_false_r. cbn [orb].
    unfold behaves. cbn [bspatch_chunks].
    destruct (bspatch_write o ooff woff blen c f out) as [[c1 f1] [[]| | |]]; cbn [hp_bs hp_d hp_ipos]; try (split; [reflexivity|discriminate]).
    split; [reflexivity|]. auto.
Qed.
Lemma hsp_loop_ok fuel : forall d ip S O P b, dinv d S O P -> d_isz d = 0 -> (length b < fuel)%nat ->
  exists outs d1 P1, dinv d1 (S ++ b) (O ++ concat outs) P1 /\ waiting d1 P1 /\
    forall c f, behaves c f outs d1 (ip + zlen b) (hsp_loop o ooff woff blen ilen fuel (mkHp c d ip) f b).
Proof.
  induction fuel as [|fuel IH]; intros d ip S O P b I Z0 F; [lia|]. cbn [hsp_loop].
  destruct (d_sink_ok d S O P b I) as (d1 & n & E & Hn & Hn2 & _ & P1 & I1). cbn [hp_d hp_bs hp_ipos]. rewrite E.
  destruct (hsp_poll_ok (Z.to_nat 20000) (mkHp bs_init d1 (ip + n)) _ _ _ I1) as (outs & d2 & P2 & I2 & W2 & B).
  { pose proof (dinv_remaining _ _ _ _ I1). lia. }
  cbn [hp_d hp_bs hp_ipos] in B. pose proof (waiting_empty _ _ _ _ I2 W2) as Z2.
  generalize dependent (Z.to_nat 20000). intros big B.
  destruct (Z.ltb_spec n (zlen b)) as [C|C].
  - destruct (IH d2 (ip + n) _ _ _ (zdrop n b) I2 Z2) as (outs3 & d3 & P3 & I3 & W3 & B3).
    { unfold zdrop. rewrite skipn_length. unfold zlen in *. lia. }
    exists (outs ++ outs3), d3, P3. rewrite concat_app, app_assoc. rewrite <- app_assoc in I3. rewrite ztake_zdrop in I3.
    split; [exact I3|]. split; [exact W3|]. intros c f. specialize (B c f). unfold behaves in B.
    destruct (hsp_poll o ooff woff blen ilen big (mkHp c d1 (ip + n)) f) as [[h1 f1] r]. destruct B as [B Bd].
    unfold behaves. rewrite bspatch_chunks_app, B. destruct r as [[]| | |]; try (split; [reflexivity|discriminate]).
    destruct (Bd eq_refl) as [Bd1 Bd2]. specialize (B3 (hp_bs h1) f1). unfold behaves in B3.
    replace (mkHp (hp_bs h1) d2 (ip + n)) with h1 in B3 by (destruct h1; cbn in *; congruence).
    replace (ip + zlen b) with (ip + n + zlen (zdrop n b)) by (rewrite zlen_zdrop; lia). exact B3.
  - exists outs, d2, P2. rewrite ztake_all in I2 by lia. split; [exact I2|]. split; [exact W2|]. intros c f. specialize (B c f). unfold behaves in B.
    destruct (hsp_poll o ooff woff blen ilen big (mkHp c d1 (ip + n)) f) as [[h1 f1] r]. destruct B as [B Bd].
    unfold behaves. replace (ip + zlen b) with (ip + n) by lia. destruct r as [[]| | |]; (split; [exact B|exact Bd]).
Qed.
(* feeding [l], each chunk while input is still expected *)
Fixpoint expected (ip : Z) (l : list bytes) : Prop :=
  match l with [] => True | b :: r => ip < ilen /\ expected (ip + zlen b) r end.
Lemma hsp_chunks_ok l : forall d ip S O P, dinv d S O P -> d_isz d = 0 -> hs_decode S = O -> expected ip l ->
  exists outs d1 P1, dinv d1 (S ++ concat l) (O ++ concat outs) P1 /\ hs_decode (S ++ concat l) = O ++ concat outs /\
    forall c f, behaves c f outs d1 (ip + zlen (concat l)) (hsp_chunks o ooff woff blen ilen (mkHp c d ip) f l).
Proof.
  induction l as [|b l IH]; intros d ip S O P I Z0 W X; cbn [concat hsp_chunks].
  - exists [], d, P. cbn [concat]. rewrite !app_nil_r. split; [exact I|]. split; [exact W|]. intros c f. unfold behaves.
    change (zlen (@nil Z)) with 0. rewrite Z.add_0_r. cbn. auto.
  - destruct X as [X1 X2].
    destruct (hsp_loop_ok (length b + 1) d ip S O P b I Z0 ltac:(lia)) as (outs & d1 & P1 & I1 & W1 & B).
    pose proof (waiting_empty _ _ _ _ I1 W1) as Z1. pose proof (dinv_waiting _ _ _ _ I1 W1) as V1.
    destruct (IH d1 (ip + zlen b) _ _ _ I1 Z1 V1 X2) as (outs2 & d2 & P2 & I2 & V2 & B2).
    exists (outs ++ outs2), d2, P2. rewrite concat_app, !app_assoc. split; [exact I2|]. split; [exact V2|]. intros c f.
    specialize (B c f). unfold hsp_write. cbn [hp_ipos]. destruct (Z.geb_spec ip ilen); [lia|]. unfold behaves in B.
    destruct (hsp_loop o ooff woff blen ilen (length b + 1) (mkHp c d ip) f b) as [[h1 f1] r]. destruct B as [B Bd].
    unfold behaves. rewrite bspatch_chunks_app, B. destruct r as [[]| | |]; try (split; [reflexivity|discriminate]).
    destruct (Bd eq_refl) as [Bd1 Bd2]. specialize (B2 (hp_bs h1) f1). unfold behaves in B2.
    replace (mkHp (hp_bs h1) d1 (ip + zlen b)) with h1 in B2 by (destruct h1; cbn in *; congruence).
    replace (ip + zlen (b ++ concat l)) with (ip + zlen b + zlen (concat l)) by (rewrite zlen_app; lia). exact B2.
Qed.
Lemma expected_nonempty l : forall ip, Forall (fun b => b <> []) l -> ip + zlen (concat l) <= ilen -> expected ip l.
Proof.
  induction l as [|b l IH]; intros ip F H; cbn [expected concat] in *; [exact I|].
  apply Forall_cons_iff in F as [F1 F2]. rewrite zlen_app in H. pose proof (zlen_nonneg (concat l)).
  assert (0 < zlen b) by (destruct b; [congruence|]; rewrite zlen_cons; pose proof (zlen_nonneg b); lia).
  split; [lia|]. apply IH; [exact F2|lia].
Qed.
Lemma hs_patch_equiv l f : expected 0 l ->
  exists outs, concat outs = hs_decode (concat l) /\
    let '(h1, f1, r) := hsp_chunks o ooff woff blen ilen hsp_init f l in
    bspatch_chunks o ooff woff blen bs_init f outs = (hp_bs h1, f1, r).
Proof.
  intros X. destruct (hsp_chunks_ok l d_reset 0 [] [] [] dinv_reset eq_refl eq_refl X) as (outs & d1 & P1 & I & V & B). cbn [app] in V.
  exists outs. split; [congruence|]. specialize (B bs_init f). unfold behaves in B. unfold hsp_init.
  destruct (hsp_chunks o ooff woff blen ilen _ f l) as [[h1 f1] r]. apply B.
Qed.
End Dec.
