(* BspatchSafe.v -- termination and absence of undefined behaviour *)
From Verif Require Import Base BaseLemmas BspatchModel BspatchSpec BspatchProofs BspatchApply.
From Coq Require Import ZifyBool.

Lemma offtin_dec b : bytes_ok b -> zlen b = 8 -> offtin b = dec_int b.
Proof.
  intros Hb Hl. rewrite offtin_value by auto. unfold dec_int. cbv zeta. unfold zlen in Hl.
  destruct b as [|b0 [|b1 [|b2 [|b3 [|b4 [|b5 [|b6 [|b7 [|? ?]]]]]]]]]; cbn [length] in Hl; try lia.
  unfold bytes_ok in Hb. rewrite !Forall_cons_iff in Hb.
  destruct Hb as (H0 & H1 & H2 & H3 & H4 & H5 & H6 & H7 & _). unfold byte_ok in *.
  cbn [nth unle].
  match goal with |- _ = (if ?x <? 2^63 then _ else _) => set (v := x) end.
  destruct (Z.ltb_spec b7 128); destruct (Z.ltb_spec v (2^63)); subst v; lia.
Qed.
Lemma bstep_not_stuck o ooff woff s b : bstep o ooff woff s b <> Stuck.
Proof.
  unfold bstep. destruct s as [c f]. cbn [fst snd].
  assert (ST : settle ooff c <> Stuck).
  { unfold settle. destruct (bs_state c); try discriminate. destruct (bs_diff c =? 0); [|discriminate].
    destruct (negb _); [discriminate|]. destruct (_ <? 0); [discriminate|].
    destruct (after_diff_kind c) as [[c1 E]|E]; rewrite E; discriminate. }
  destruct (settle ooff c) as [c1| | |]; cbn [bind]; try discriminate; [|congruence].
  unfold bbyte. destruct (bs_state c1); try discriminate.
  - destruct (bs_diff c1 <? 0); [discriminate|]. destruct (negb _); [discriminate|]. destruct (_ <? 0); [discriminate|].
    destruct (slice _ 1 o) as [|x [|]]; try discriminate.
    match goal with |- context [after_diff ?x] => destruct (after_diff_kind x) as [[c2 E]|E]; rewrite E; discriminate end.
  - cbn [bs_extra]. destruct (bs_extra c1 - 1 =? 0); [|discriminate].
    match goal with |- context [bs_next ?x] => destruct (bs_next_kind x) as [(c2 & E & _)|E]; rewrite E; discriminate end.
Qed.
Lemma brun_not_stuck o ooff woff l s : brun o ooff woff s l <> Stuck.
Proof.
  revert s; induction l as [|b l IH]; intros s; cbn [brun]; [discriminate|].
  pose proof (bstep_not_stuck o ooff woff s b).
  destruct (bstep o ooff woff s b) as [s1| | |]; cbn [bind]; try discriminate; [apply IH|congruence].
Qed.

Lemma patch_headers_more k : forall k2 p, (length p <= k)%nat -> (length p <= k2)%nat -> patch_headers k p = patch_headers k2 p.
Proof.
  induction k as [|k IH]; intros k2 p H1 H2.
  - assert (p = []) as -> by (destruct p; [reflexivity|cbn in H1; lia]). destruct k2; reflexivity.
  - destruct k2 as [|k2].
    + assert (p = []) as -> by (destruct p; [reflexivity|cbn in H2; lia]). reflexivity.
    + cbn [patch_headers]. destruct (Z.ltb_spec (zlen p) 24); [reflexivity|]. f_equal.
      assert (L : (length (zdrop (24 + Z.max 0 (dec_int (slice 0 8 p)) + Z.max 0 (dec_int (slice 8 8 p))) p) < length p)%nat).
      { unfold zdrop. rewrite skipn_length. unfold zlen in *. lia. }
      apply IH; lia.
Qed.
Definition hdrs (p : bytes) := patch_headers (length p) p.
Lemma hdrs_unfold p : 24 <= zlen p ->
  let d := dec_int (slice 0 8 p) in let e := dec_int (slice 8 8 p) in
  hdrs p = (d, e, dec_int (slice 16 8 p)) :: hdrs (zdrop (24 + Z.max 0 d + Z.max 0 e) p).
Proof.
  intros H d e. unfold hdrs. destruct (length p) as [|k] eqn:L; [unfold zlen in H; lia|].
  cbn [patch_headers]. destruct (Z.ltb_spec (zlen p) 24); [lia|]. fold d e. f_equal.
  apply patch_headers_more; [|lia]. unfold zdrop. rewrite skipn_length. lia.
Qed.
(* no undefined behaviour, nor in an empty call afterwards *)
Definition bsafe (ooff : Z) (r : res (bsctx * bytes)) : Prop :=
  match r with Ok (c1, _) => zero_write ooff c1 <> UB | UB => False | _ => True end.
Lemma settle_zero ooff c c0 : settle ooff c = Ok c0 -> bs_state c0 = BFill -> zero_write ooff c <> UB.
Proof.
  unfold settle, zero_write. destruct (bs_state c) eqn:S; try discriminate.
  destruct (Z.eqb_spec (bs_diff c) 0) as [D|D].
  - rewrite D. destruct (negb _); [discriminate|]. destruct (_ <? 0); [discriminate|]. change (0 <? 0) with false. cbv iota. intros E _ X. congruence.
  - intros E F. injection E as <-. congruence.
Qed.
Lemma no_ub o ooff woff : 0 <= woff -> zlen o < 2^63 ->
  forall n p c f pos c0, (length p <= n)%nat -> bytes_ok p -> bwf c ->
  settle ooff c = Ok c0 -> bs_state c0 = BFill -> bs_ctrl c0 = [] -> bs_opos c0 = pos ->
  headers_sane ooff pos (hdrs p) -> bsafe ooff (brun o ooff woff (c, f) p).
Proof.
  intros Hw Ho. induction n as [n IH] using lt_wf_ind. intros p c f pos c0 Hn Hp W Hs S0 C0 O0 HS.
  destruct p as [|b0 p0] eqn:Ep; [exact (settle_zero _ _ _ Hs S0)|]. rewrite <- Ep in *.
  assert (Np : p <> []) by (rewrite Ep; discriminate). clear Ep b0 p0.
  rewrite <- (brun_settle _ _ _ _ f _ _ Hs Np). pose proof (settle_wf _ _ _ W Hs) as W0.
  destruct (Z.ltb_spec (zlen p) 24) as [Hl|Hl].
  { rewrite fill_run; [cbn [bsafe]; unfold zero_write; cbn [bs_state]; discriminate|exact S0|rewrite C0; change (zlen (@nil Z)) with 0; lia]. }
  rewrite (brun_split _ _ _ _ 24 p).
  assert (Lk : zlen (ztake 24 p) = 24) by (rewrite zlen_ztake; lia).
  assert (Nk : ztake 24 p <> []) by (intros X; rewrite X in Lk; change (zlen (@nil Z)) with 0 in Lk; lia).
  rewrite fill_full by (rewrite ?C0; auto; change (zlen (@nil Z)) with 0; lia).
  rewrite C0. cbn [app bind]. unfold read_ctrl. rewrite O0.
  assert (SL : forall i, 0 <= i <= 16 -> slice i 8 (ztake 24 p) = slice i 8 p).
  { intros i Hi. rewrite <- (slice_0 24 p), slice_slice by lia. f_equal. lia. }
  rewrite !SL by lia. clear SL.
  rewrite !offtin_dec by (try (apply bytes_ok_slice; assumption); apply zlen_slice_in; lia).
  pose proof (hdrs_unfold p Hl) as HU. cbv zeta in HU. rewrite HU in HS. clear HU. cbn [headers_sane] in HS.
  set (d := dec_int (slice 0 8 p)) in *. set (e := dec_int (slice 8 8 p)) in *. set (a := dec_int (slice 16 8 p)) in *.
  clearbody d e a. destruct HS as (Hd & Hoff & Hnext & HS).
  set (k := ztake 24 p) in *. set (q := zdrop 24 p) in *.
  assert (Lq : (length q + 24 = length p)%nat) by (unfold q, zdrop; rewrite skipn_length; unfold zlen in Hl; lia).
  assert (Hq : bytes_ok q) by (apply bytes_ok_zdrop; exact Hp).
  assert (Eq : zdrop (24 + Z.max 0 d + Z.max 0 e) p = zdrop (Z.max 0 d + Z.max 0 e) q).
  { unfold q. rewrite zdrop_zdrop by lia. f_equal. lia. }
  rewrite Eq in HS. clear Eq. clearbody q k. set (w := bs_wpos c0) in *.
  assert (Hw0 : 0 <= w) by apply W0. clearbody w. clear W0 Hs S0 C0 O0 W c Hp Nk Lk Hl Np c0.
  (* finishing a record *)
  assert (FIN : forall c f q2, bwf c -> bs_state c = BFill -> bs_ctrl c = [] -> bs_opos c = pos + d + a ->
                 (length q2 < length p)%nat -> bytes_ok q2 ->
                 q2 = zdrop (Z.max 0 d + Z.max 0 e) q -> bsafe ooff (brun o ooff woff (c, f) q2)).
  { intros c f1 q2 Wc Sc Cc Oc Lc Bc Ec. eapply (IH (length q2)); try eassumption; [lia|lia| |].
    - unfold settle. rewrite Sc. reflexivity.
    - rewrite Ec. exact HS. }
  (* the extra part *)
  assert (EXT : forall c f q2, bwf c ->
      (if e >? 0 then bs_state c = BExtra /\ bs_extra c = e /\ bs_adj c = a /\ bs_opos c = pos + d
       else bs_state c = BFill /\ bs_ctrl c = [] /\ bs_opos c = pos + d + a) ->
      (length q2 < length p)%nat -> bytes_ok q2 -> q2 = zdrop d q -> bsafe ooff (brun o ooff woff (c, f) q2)).
  { intros c f1 q2 Wc Hc Lc Bc Ec. destruct (Z.gtb_spec e 0) as [G|G].
    2:{ destruct Hc as (Sc & Cc & Oc). apply FIN; auto. rewrite Ec. f_equal. lia. }
    destruct Hc as (Sc & Xc & Ac & Oc).
    assert (D2 : q2 = [] \/ q2 <> []) by (destruct q2; [left; reflexivity|right; discriminate]).
    destruct D2 as [E2|N2]; [rewrite E2; cbn [brun bsafe]; unfold zero_write; rewrite Sc; discriminate|].
    assert (P2 : 1 <= zlen q2) by (destruct q2; [congruence|]; rewrite zlen_cons; pose proof (zlen_nonneg q2); lia).
    set (m := Z.min e (zlen q2)).
    assert (Lm : zlen (ztake m q2) = m) by (rewrite zlen_ztake; lia).
    assert (Nm : ztake m q2 <> []) by (intros X; rewrite X in Lm; change (zlen (@nil Z)) with 0 in Lm; lia).
    rewrite (brun_split _ _ _ _ m q2). rewrite extra_run; auto; [|lia|apply Wc].
    rewrite Lm. cbv zeta. cbn [bs_extra]. rewrite Xc, Ac, Oc.
    destruct (Z.eqb_spec (e - m) 0) as [Z0|Z0].
    - unfold bs_next. cbn [bs_opos bs_adj bs_diff bs_extra bs_wpos].
      replace (in_i64 (pos + d + a)) with true by (unfold in_i64; lia). cbn [bind].
      apply FIN; try reflexivity.
      + unfold bwf. cbn [bs_state bs_wpos bs_ctrl]. change (zlen (@nil Z)) with 0. destruct Wc. lia.
      + unfold zdrop. rewrite skipn_length. lia.
      + apply bytes_ok_zdrop; exact Bc.
      + rewrite Ec, zdrop_zdrop by lia. f_equal. lia.
    - cbn [bind]. rewrite zdrop_all by lia. cbn [brun bsafe]. unfold zero_write. cbn [bs_state]. discriminate. }
  (* the diff part *)
  assert (D2 : q = [] \/ q <> []) by (destruct q; [left; reflexivity|right; discriminate]).
  assert (I64 : in_i64 (ooff + pos) = true) by (unfold in_i64; lia).
  destruct D2 as [E2|N2].
  { rewrite E2. cbn [brun bsafe]. unfold zero_write, after_diff, bs_next. cbn [bs_state bs_diff bs_extra bs_adj bs_opos].
    destruct (Z.ltb_spec d 0); [lia|]. rewrite I64. cbn [negb]. destruct (_ <? 0); [discriminate|].
    destruct (Z.eqb_spec d 0); [|discriminate]. destruct (_ >? 0); [discriminate|].
    replace (in_i64 (pos + a)) with true by (unfold in_i64; lia). discriminate. }
  assert (P2 : 1 <= zlen q) by (destruct q; [congruence|]; rewrite zlen_cons; pose proof (zlen_nonneg q); lia).
  destruct (Z.ltb_spec (ooff + pos) 0) as [Neg|Pos].
  { destruct q as [|b q]; [congruence|]. cbn [brun]. unfold bstep, settle. cbn [fst snd bs_state bs_diff bs_opos].
    rewrite I64. cbn [negb]. destruct (Z.ltb_spec (ooff + pos) 0); [|lia].
    destruct (Z.eqb_spec d 0); [exact I|]. cbn [bind]. unfold bbyte. cbn [bs_state bs_diff bs_opos].
    rewrite I64. cbn [negb]. destruct (Z.ltb_spec d 0); [lia|]. destruct (Z.ltb_spec (ooff + pos) 0); [exact I|lia]. }
  destruct (Z.eqb_spec d 0) as [D0|D0].
  - set (cd := mkBs BDiff k d e a pos w).
    assert (Sd : settle ooff cd = after_diff cd).
    { unfold settle, cd. cbn [bs_state bs_diff bs_opos]. rewrite I64. cbn [negb].
      destruct (Z.eqb_spec d 0); [|lia]. destruct (Z.ltb_spec (ooff + pos) 0); [lia|]. reflexivity. }
    assert (Wd : bwf cd) by (unfold bwf, cd; cbn; auto).
    unfold after_diff in Sd. unfold cd in Sd at 2. cbn [bs_diff bs_extra bs_ctrl bs_adj bs_opos bs_wpos] in Sd.
    destruct (Z.eqb_spec d 0); [|lia]. cbn [cd bs_extra bs_ctrl bs_diff bs_adj bs_opos bs_wpos] in Sd.
    destruct (Z.gtb_spec e 0) as [G|G].
    + rewrite <- (brun_settle _ _ _ _ f _ _ Sd N2). apply EXT; auto.
      * eapply settle_wf; eauto.
      * destruct (Z.gtb_spec e 0); [|lia]. cbn. repeat split; lia.
      * lia.
      * rewrite D0, zdrop_0. reflexivity.
    + unfold bs_next in Sd. change (bs_opos cd + bs_adj cd) with (pos + a) in Sd.
      replace (in_i64 (pos + a)) with true in Sd by (unfold in_i64; lia).
      rewrite <- (brun_settle _ _ _ _ f _ _ Sd N2). apply EXT; auto.
      * eapply settle_wf; eauto.
      * destruct (Z.gtb_spec e 0); [lia|]. cbn. repeat split; lia.
      * lia.
      * rewrite D0, zdrop_0. reflexivity.
  - set (m := Z.min d (zlen q)).
    assert (Lm : zlen (ztake m q) = m) by (rewrite zlen_ztake; lia).
    assert (Nm : ztake m q <> []) by (intros X; rewrite X in Lm; change (zlen (@nil Z)) with 0 in Lm; lia).
    rewrite (brun_split _ _ _ _ m q). rewrite diff_run; cbn [bs_state bs_diff bs_wpos bs_opos bs_ctrl bs_extra bs_adj]; auto; try lia.
    rewrite Lm. destruct (Z.leb_spec (ooff + pos + m) (zlen o)); [|exact I].
    unfold after_diff. cbn [bs_diff bs_extra bs_ctrl bs_adj bs_opos bs_wpos].
    destruct (Z.eqb_spec (d - m) 0) as [Z0|Z0].
    2:{ cbn [bind]. rewrite zdrop_all by lia. cbn [brun bsafe]. unfold zero_write, after_diff. cbn [bs_state bs_diff bs_opos].
        destruct (Z.ltb_spec (d - m) 0); [lia|]. replace (in_i64 (ooff + (pos + m))) with true by (unfold in_i64; lia). cbn [negb].
        destruct (_ <? 0); [discriminate|]. destruct (Z.eqb_spec (d - m) 0); [lia|discriminate]. }
    assert (Em : m = d) by lia. clearbody m. subst m.
    assert (Lq2 : (length (zdrop d q) < length p)%nat) by (unfold zdrop; rewrite skipn_length; lia).
    destruct (Z.gtb_spec e 0) as [G|G].
    + cbn [bind]. apply EXT; auto.
      * unfold bwf. cbn. lia.
      * apply bytes_ok_zdrop; exact Hq.
    + unfold bs_next. cbn [bs_opos bs_adj bs_diff bs_extra bs_wpos].
      replace (in_i64 (pos + d + a)) with true by (unfold in_i64; lia). cbn [bind]. apply EXT; auto.
      * unfold bwf. cbn [bs_state bs_wpos bs_ctrl]. change (zlen (@nil Z)) with 0. lia.
      * apply bytes_ok_zdrop; exact Hq.
Qed.
(* no hang for any input in any state *)
Lemma write_terminates o ooff woff blen c f pp :
  0 < blen -> 0 <= woff -> zlen o < 2^63 -> bwf c ->
  bout (bspatch_write o ooff woff blen c f pp) <> Stuck.
Proof.
  intros Hb Hw Ho W. assert (D2 : pp = [] \/ pp <> []) by (destruct pp; [left; reflexivity|right; discriminate]).
  destruct D2 as [-> |N].
  - rewrite write_nil by auto. unfold zero_write. destruct (bs_state c); try discriminate.
    destruct (bs_diff c <? 0); [discriminate|]. destruct (negb _); [discriminate|].
    destruct (ooff + bs_opos c <? 0); [discriminate|].
    destruct (after_diff_kind c) as [[c1 E]|E]; rewrite E; discriminate.
  - rewrite write_brun by auto. apply brun_not_stuck.
Qed.
Lemma write_keeps_wf o ooff woff blen c f pp c1 f1 :
  0 < blen -> 0 <= woff -> zlen o < 2^63 -> bwf c ->
  bspatch_write o ooff woff blen c f pp = (c1, f1, Ok tt) -> bwf c1.
Proof.
  intros Hb Hw Ho W E. assert (B : bout (bspatch_write o ooff woff blen c f pp) = Ok (c1, f1)) by (rewrite E; reflexivity).
  assert (D2 : pp = [] \/ pp <> []) by (destruct pp; [left; reflexivity|right; discriminate]).
  destruct D2 as [-> |N].
  - rewrite write_nil in B by auto. destruct (zero_write ooff c) as [c2| | |] eqn:Z0; try discriminate.
    cbn [bind] in B. injection B as <- <-. eapply zero_wf; eauto.
  - rewrite write_brun in B by auto. exact (brun_wf _ _ _ _ (c, f) (c1, f1) W B).
Qed.
Lemma chunks_terminate o ooff woff blen l : forall c f,
  0 < blen -> 0 <= woff -> zlen o < 2^63 -> bwf c ->
  bout (bspatch_chunks o ooff woff blen c f l) <> Stuck.
Proof.
  induction l as [|b r IH]; intros c f Hb Hw Ho W; rewrite bout_chunks; [discriminate|].
  pose proof (write_terminates o ooff woff blen c f b Hb Hw Ho W) as T.
  destruct (bspatch_write o ooff woff blen c f b) as [[c1 f1] [[]| | |]] eqn:E; cbn [bout bind fst snd] in *; try discriminate; [|congruence].
  apply IH; auto. eapply write_keeps_wf; eauto.
Qed.
(* after an error every further call fails *)
Lemma loop_error o ooff woff blen fuel : forall c f pp c1 f1 e,
  bs_loop o ooff woff blen fuel c f pp = (c1, f1, Err e) -> bs_state c1 = BError.
Proof.
  induction fuel as [|k IH]; intros c f pp c1 f1 e; cbn [bs_loop]; [discriminate|].
  destruct (bs_state c) eqn:S.
  - destruct (_ <? 24); [|discriminate]. destruct (_ =? 24); [|discriminate]. apply IH.
  - destruct (_ >? 0); [apply IH|discriminate].
  - destruct (_ <? 0); [discriminate|]. destruct (negb _); [discriminate|].
    destruct (read_origin _ _ _) as [b|e2| |]; try discriminate.
    + destruct (zlen b =? _); [|intros E; injection E as <- _ _; reflexivity].
      match goal with |- (match ?x with _ => _ end) = _ -> _ => destruct x end; try discriminate.
      destruct (_ >? 0); [apply IH|discriminate].
    + intros E; injection E as <- _ _; reflexivity.
  - destruct (_ =? 0); [|discriminate].
    match goal with |- (match ?x with _ => _ end) = _ -> _ => destruct x end; try discriminate.
    destruct (_ >? 0); [apply IH|discriminate].
  - intros E; injection E as <- _ _; exact S.
Qed.
Lemma zero_buffer_loops o ooff woff fuel : forall c f pp,
  bs_state c = BDiff -> 0 < bs_diff c -> pp <> [] -> 0 <= ooff + bs_opos c < 2^63 ->
  bs_loop o ooff woff 0 fuel c f pp = (c, f, Stuck).
Proof.
  induction fuel as [|k IH]; intros c f pp S D N O; [reflexivity|]. cbn [bs_loop]. rewrite S.
  assert (P : 1 <= zlen pp) by (destruct pp; [congruence|]; rewrite zlen_cons; pose proof (zlen_nonneg pp); lia).
  set (n := Z.min (Z.min (zlen pp) (bs_diff c)) 0). assert (Z0 : n = 0) by lia. rewrite Z0.
  change (0 <? 0) with false. cbv iota. replace (in_i64 (ooff + bs_opos c)) with true by (unfold in_i64; lia). cbn [negb].
  unfold read_origin, fread_at. destruct (Z.ltb_spec (ooff + bs_opos c) 0); [lia|].
  rewrite slice_neg_len by lia. change (zlen (@nil Z) =? 0) with true. cbv iota. cbn [add_bytes].
  rewrite fwrite_at_nil, zdrop_0, (bs_eta c S). destruct (Z.eqb_spec (bs_diff c) 0); [lia|].
  destruct (Z.gtb_spec (zlen pp) 0); [|lia]. apply IH; auto.
Qed.
(* ---- in the form of the properties ----------------------------------- *)
Lemma chunking_same o ooff woff blen1 blen2 c f l1 l2 :
  0 < blen1 -> 0 < blen2 -> 0 <= woff -> zlen o < 2^63 -> bwf c ->
  Forall (fun b : bytes => b <> []) l1 -> Forall (fun b : bytes => b <> []) l2 -> concat l1 = concat l2 ->
  match bspatch_chunks o ooff woff blen1 c f l1, bspatch_chunks o ooff woff blen2 c f l2 with
  | (c1, f1, r1), (c2, f2, r2) => r1 = r2 /\ (r1 = Ok tt -> c1 = c2 /\ f1 = f2)
  end.
Proof.
  intros B1 B2 Hw Ho W N1 N2 E.
  pose proof (chunks_brun o ooff woff blen1 l1 c f B1 Hw Ho W N1) as X1.
  pose proof (chunks_brun o ooff woff blen2 l2 c f B2 Hw Ho W N2) as X2.
  rewrite E in X1. rewrite <- X2 in X1. clear X2.
  destruct (bspatch_chunks o ooff woff blen1 c f l1) as [[c1 f1] [[]|e1| |]];
  destruct (bspatch_chunks o ooff woff blen2 c f l2) as [[c2 f2] [[]|e2| |]]; cbn [bout] in X1; try discriminate;
    try (split; [congruence|discriminate]).
  injection X1 as -> ->. auto.
Qed.
Lemma error_is_final o ooff woff blen c f pp c1 f1 e :
  bspatch_write o ooff woff blen c f pp = (c1, f1, Err e) ->
  bspatch_final c1 = Err (-1) /\ forall g q, bspatch_write o ooff woff blen c1 g q = (c1, g, Err (-1)).
Proof.
  intros E. unfold bspatch_write in E. apply loop_error in E. split.
  - unfold bspatch_final. rewrite E. reflexivity.
  - intros g q. unfold bspatch_write. replace (3 * length q + 4)%nat with (S (3 * length q + 3)) by lia.
    cbn [bs_loop]. rewrite E. reflexivity.
Qed.
Lemma chunks_not_stuck o ooff woff blen c f l :
  0 < blen -> 0 <= woff -> zlen o < 2^63 -> bwf c ->
  snd (bspatch_chunks o ooff woff blen c f l) <> Stuck.
Proof.
  intros B Hw Ho W. pose proof (chunks_terminate o ooff woff blen l c f B Hw Ho W) as T.
  destruct (bspatch_chunks o ooff woff blen c f l) as [[c1 f1] [[]|e1| |]]; cbn [bout snd] in *; congruence.
Qed.
(* any chunks, empty ones too *)
Lemma chunks_safe o ooff woff blen l : forall c f, 0 < blen -> 0 <= woff -> zlen o < 2^63 -> bwf c ->
  bsafe ooff (brun o ooff woff (c, f) (concat l)) -> bout (bspatch_chunks o ooff woff blen c f l) <> UB.
Proof.
  induction l as [|b l IH]; intros c f B Hw Ho W U; rewrite bout_chunks; [discriminate|]. cbn [concat] in U.
  assert (D : b = [] \/ b <> []) by (destruct b; [left; reflexivity|right; discriminate]). destruct D as [-> |Nb].
  - cbn [app] in U. rewrite write_nil by auto.
    assert (NU : zero_write ooff c <> UB).
    { destruct (concat l) as [|x q]; [exact U|]. pose proof (zero_bad o ooff woff c f x q) as Z0.
      destruct (zero_write ooff c); try discriminate. rewrite Z0 in U. contradiction. }
    destruct (zero_write ooff c) as [c1| | |] eqn:Zc; cbn [bind fst snd]; try discriminate; [|congruence].
    apply IH; auto; [eapply zero_wf; eauto|].
    assert (D : concat l = [] \/ concat l <> []) by (destruct (concat l); [left; reflexivity|right; discriminate]). destruct D as [E|N].
    + rewrite E. cbn [brun bsafe]. rewrite (zero_idem _ _ _ Zc). discriminate.
    + rewrite (brun_settle _ _ _ _ f _ _ (zero_settle _ _ _ Zc) N). exact U.
  - rewrite write_brun by auto. rewrite brun_app in U.
    destruct (brun o ooff woff (c, f) b) as [[c1 f1]| | |] eqn:E; cbn [bind fst snd] in *; try discriminate; [|contradiction].
    apply IH; auto. exact (brun_wf _ _ _ _ (c, f) (c1, f1) W E).
Qed.
Lemma chunks_no_ub o ooff woff blen f p l :
  0 < blen -> 0 <= woff -> zlen o < 2^63 -> bytes_ok p -> concat l = p ->
  headers_sane ooff 0 (patch_headers (length p) p) ->
  snd (bspatch_chunks o ooff woff blen bs_init f l) <> UB.
Proof.
  intros B Hw Ho Hp El HS.
  pose proof (no_ub o ooff woff Hw Ho (length p) p bs_init f 0 bs_init (le_n _) Hp bwf_init eq_refl eq_refl eq_refl eq_refl HS) as U.
  rewrite <- El in U. pose proof (chunks_safe o ooff woff blen l bs_init f B Hw Ho bwf_init U) as X.
  destruct (bspatch_chunks o ooff woff blen bs_init f l) as [[c1 f1] [[]|e1| |]]; cbn [bout snd] in *; congruence.
Qed.
