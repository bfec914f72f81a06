(* BspatchApply.v -- chunking independence; a well formed patch applied in any
   chunking gives the specified output *)
From Verif Require Import Base BaseLemmas BspatchModel BspatchSpec BspatchProofs.
From Coq Require Import ZifyBool.

Lemma brank_le c : bwf c -> (brank c <= 1)%nat.
Proof. intros [_ W]. unfold brank. destruct (bs_state c); try contradiction; lia. Qed.
Lemma write_brun o ooff woff blen c f pp :
  0 < blen -> 0 <= woff -> zlen o < 2^63 -> bwf c -> pp <> [] ->
  bout (bspatch_write o ooff woff blen c f pp) = brun o ooff woff (c, f) pp.
Proof.
  intros Hb Hw Ho W N. unfold bspatch_write. apply loop_brun; auto.
  pose proof (brank_le c W). lia.
Qed.
Lemma bout_chunks o ooff woff blen c f l :
  bout (bspatch_chunks o ooff woff blen c f l) =
  match l with
  | [] => Ok (c, f)
  | b :: r => do s <- bout (bspatch_write o ooff woff blen c f b);
              bout (bspatch_chunks o ooff woff blen (fst s) (snd s) r)
  end.
Proof.
  destruct l as [|b r]; [reflexivity|]. cbn [bspatch_chunks].
  destruct (bspatch_write o ooff woff blen c f b) as [[c1 f1] [u|e| |]]; reflexivity.
Qed.
Lemma chunks_brun o ooff woff blen l c f :
  0 < blen -> 0 <= woff -> zlen o < 2^63 -> bwf c -> Forall (fun b : bytes => b <> []) l ->
  bout (bspatch_chunks o ooff woff blen c f l) = brun o ooff woff (c, f) (concat l).
Proof.
  intros Hb Hw Ho. revert c f; induction l as [|b r IH]; intros c f W N; rewrite bout_chunks; [reflexivity|].
  apply Forall_cons_iff in N as [N1 N2]. cbn [concat]. rewrite brun_app, write_brun by auto.
  destruct (brun o ooff woff (c, f) b) as [[c1 f1]| | |] eqn:E; cbn [bind fst snd]; try reflexivity.
  apply IH; auto. exact (brun_wf _ _ _ _ (c, f) (c1, f1) W E).
Qed.

(* calls with no data *)
Definition zero_write (ooff : Z) (c : bsctx) : res bsctx :=
  match bs_state c with
  | BDiff => if bs_diff c <? 0 then UB
             else if negb (in_i64 (ooff + bs_opos c)) then UB
             else if ooff + bs_opos c <? 0 then Err E_SEEK_ERROR else after_diff c
  | BError => Err (-1)
  | _ => Ok c
  end.
Lemma write_nil o ooff woff blen c f : 0 < blen -> bwf c ->
  bout (bspatch_write o ooff woff blen c f []) = (do c1 <- zero_write ooff c; Ok (c1, f)).
Proof.
  intros Hb [W1 W2]. unfold bspatch_write. change (3 * length (@nil Z) + 4)%nat with (S 3). generalize 3%nat as k. intros k.
  cbn [bs_loop]. unfold zero_write.
  change (zlen (@nil Z)) with 0.
  destruct (bs_state c) eqn:S; try contradiction.
  - pose proof (zlen_nonneg (bs_ctrl c)). destruct (Z.ltb_spec (zlen (bs_ctrl c)) 24); [|lia].
    rewrite ztake_nil, app_nil_r. destruct (Z.eqb_spec (zlen (bs_ctrl c)) 24); [lia|].
    cbn [bout bind]. destruct c; cbn in *; subst; reflexivity.
  - set (n := Z.min (Z.min 0 (bs_diff c)) blen).
    destruct (Z.ltb_spec (bs_diff c) 0); destruct (Z.ltb_spec n 0); try lia; [reflexivity|].
    destruct (in_i64 (ooff + bs_opos c)); [|reflexivity]. cbn [negb]. unfold read_origin.
    destruct (ooff + bs_opos c <? 0); [reflexivity|]. unfold fread_at.
    assert (Z0 : n = 0) by lia. rewrite Z0. rewrite slice_neg_len by lia.
    change (zlen (@nil Z) =? 0) with true. cbv iota. rewrite ztake_nil, zdrop_nil. cbn [add_bytes].
    rewrite fwrite_at_nil. change (zlen (@nil Z) >? 0) with false. cbv iota.
    rewrite (bs_eta c S).
    change (if bs_diff c =? 0 then _ else _) with (after_diff c).
    destruct (after_diff_kind c) as [[c1 E]|E]; rewrite E; reflexivity.
  - set (n := Z.min 0 (bs_extra c)). assert (Z0 : n = 0) by lia. rewrite Z0. cbn [bs_extra].
    rewrite ztake_nil, fwrite_at_nil.
    destruct (Z.eqb_spec (bs_extra c - 0) 0); [lia|]. cbn [bout bind]. rewrite Z.sub_0_r, Z.add_0_r.
    destruct c; cbn in *; subst; reflexivity.
  - reflexivity.
Qed.
Lemma zero_settle ooff c c1 : zero_write ooff c = Ok c1 -> settle ooff c = Ok c1.
Proof.
  unfold zero_write, settle. destruct (bs_state c); try discriminate; try (intros E; exact E).
  destruct (bs_diff c <? 0) eqn:D; [discriminate|]. destruct (negb _); [discriminate|]. destruct (ooff + bs_opos c <? 0); [discriminate|].
  destruct (bs_diff c =? 0) eqn:D2; [intros E; exact E|]. unfold after_diff. rewrite D2. intros E; exact E.
Qed.
Lemma zero_idem ooff c c1 : zero_write ooff c = Ok c1 -> zero_write ooff c1 = Ok c1.
Proof.
  unfold zero_write. destruct (bs_state c) eqn:S; try discriminate; try (intros E; injection E as <-; rewrite S; reflexivity).
  destruct (bs_diff c <? 0) eqn:D; [discriminate|]. destruct (negb _) eqn:I; [discriminate|]. destruct (ooff + bs_opos c <? 0) eqn:G; [discriminate|].
  unfold after_diff at 1. destruct (bs_diff c =? 0) eqn:D2.
  - destruct (bs_extra c >? 0).
    + intros E. injection E as <-. reflexivity.
    + unfold bs_next. destruct (in_i64 (bs_opos c + bs_adj c)); [|discriminate]. intros E. injection E as <-. reflexivity.
  - intros E. injection E as <-. rewrite S, D, I, G. unfold after_diff. rewrite D2. reflexivity.
Qed.
Lemma zero_wf ooff c c1 : bwf c -> zero_write ooff c = Ok c1 -> bwf c1.
Proof. intros W E. apply zero_settle in E. eapply settle_wf; eauto. Qed.
(* a byte fails at least when an empty call fails *)
Lemma zero_bad o ooff woff c f b l :
  match zero_write ooff c with
  | Err e => brun o ooff woff (c, f) (b :: l) = Err e
  | UB => brun o ooff woff (c, f) (b :: l) = UB
  | Stuck => False
  | Ok _ => True
  end.
Proof.
  unfold zero_write. cbn [brun]. unfold bstep, settle. cbn [fst snd].
  destruct (bs_state c) eqn:S; try exact I.
  - destruct (Z.ltb_spec (bs_diff c) 0).
    + destruct (Z.eqb_spec (bs_diff c) 0); [lia|]. cbn [bind]. unfold bbyte. rewrite S.
      destruct (Z.ltb_spec (bs_diff c) 0); [reflexivity|lia].
    + destruct (negb (in_i64 (ooff + bs_opos c))) eqn:J.
      { destruct (Z.eqb_spec (bs_diff c) 0); [reflexivity|]. cbn [bind]. unfold bbyte. rewrite S, J.
        destruct (Z.ltb_spec (bs_diff c) 0); reflexivity. }
      destruct (ooff + bs_opos c <? 0) eqn:G.
      { destruct (Z.eqb_spec (bs_diff c) 0); [reflexivity|]. cbn [bind]. unfold bbyte. rewrite S, J, G.
        destruct (Z.ltb_spec (bs_diff c) 0); [lia|reflexivity]. }
      destruct (Z.eqb_spec (bs_diff c) 0).
      * destruct (after_diff_kind c) as [[c1 E]|E]; rewrite E; [exact I|reflexivity].
      * unfold after_diff. destruct (Z.eqb_spec (bs_diff c) 0); [lia|exact I].
  - cbn [bind]. unfold bbyte. rewrite S. reflexivity.
Qed.
Lemma chunks_any o ooff woff blen l c f c2 f2 c3 :
  0 < blen -> 0 <= woff -> zlen o < 2^63 -> bwf c ->
  brun o ooff woff (c, f) (concat l) = Ok (c2, f2) -> zero_write ooff c2 = Ok c3 ->
  exists c4, bout (bspatch_chunks o ooff woff blen c f l) = Ok (c4, f2) /\ (c4 = c2 \/ c4 = c3).
Proof.
  intros Hb Hw Ho. revert c f c2 f2 c3; induction l as [|b r IH]; intros c f c2 f2 c3 W E Z3; rewrite bout_chunks.
  - cbn [concat brun] in E. injection E as <- <-. eauto.
  - cbn [concat] in E. destruct b as [|x b].
    + cbn [app] in E. rewrite write_nil by auto.
      destruct (zero_write ooff c) as [c1|e| |] eqn:Zc.
      * cbn [bind fst snd]. pose proof (zero_wf _ _ _ W Zc) as W1.
        destruct (concat r) as [|y l] eqn:Er.
        -- cbn [brun] in E. injection E as <- <-. rewrite Zc in Z3. injection Z3 as <-.
           destruct (IH c1 f c1 f c1 W1 eq_refl (zero_idem _ _ _ Zc)) as (c4 & E4 & D4).
           exists c4. split; [exact E4|]. right. destruct D4; assumption.
        -- refine (IH c1 f c2 f2 c3 W1 _ Z3).
           rewrite (brun_settle _ _ _ _ _ _ _ (zero_settle _ _ _ Zc)) by discriminate. exact E.
      * exfalso. destruct (concat r) as [|y l].
        -- cbn [brun] in E. injection E as <- <-. congruence.
        -- pose proof (zero_bad o ooff woff c f y l) as X. rewrite Zc in X. congruence.
      * exfalso. destruct (concat r) as [|y l].
        -- cbn [brun] in E. injection E as <- <-. congruence.
        -- pose proof (zero_bad o ooff woff c f y l) as X. rewrite Zc in X. congruence.
      * exfalso. pose proof (zero_bad o ooff woff c f 0 []) as X. rewrite Zc in X. exact X.
    + rewrite brun_app in E. rewrite write_brun by (auto; discriminate).
      destruct (brun o ooff woff (c, f) (x :: b)) as [[c1 f1]| | |] eqn:E1; cbn [bind fst snd] in *; try discriminate.
      exact (IH c1 f1 c2 f2 c3 (brun_wf _ _ _ _ (c, f) (c1, f1) W E1) E Z3).
Qed.

(* ---- applying the encoding of a list of records ---------------------- *)
(* between two records, at origin position [pos] and output position [w] *)
Definition at_record (ooff : Z) (c : bsctx) (pos w : Z) : Prop :=
  bwf c /\ bs_wpos c = w /\
  exists c0, zero_write ooff c = Ok c0 /\ bs_state c0 = BFill /\ bs_ctrl c0 = [] /\ bs_opos c0 = pos /\ bs_wpos c0 = w.
Lemma at_record_init ooff : at_record ooff bs_init 0 0.
Proof. split; [exact bwf_init|]. split; [reflexivity|]. exists bs_init. repeat split; reflexivity. Qed.
Lemma add_bytes_sums a b : add_bytes a b = byte_sums a b.
Proof.
  unfold byte_sums. revert b; induction a as [|x a IH]; intros b; [reflexivity|].
  destruct b as [|y b]; [reflexivity|]. cbn [add_bytes combine map fst snd]. rewrite IH. reflexivity.
Qed.
Lemma at_record_fill ooff c pos w : bs_state c = BFill -> bs_ctrl c = [] -> bs_opos c = pos -> bs_wpos c = w -> 0 <= w ->
  at_record ooff c pos w.
Proof.
  intros S C P W H. split.
  - unfold bwf. rewrite S, C. change (zlen (@nil Z)) with 0. lia.
  - split; [exact W|]. exists c. unfold zero_write. rewrite S. auto.
Qed.
Lemma ctrl_slices a b c d : zlen a = 8 -> zlen b = 8 -> zlen c = 8 ->
  slice 0 8 (a ++ b ++ c ++ d) = a /\ slice 8 8 (a ++ b ++ c ++ d) = b /\ slice 16 8 (a ++ b ++ c ++ d) = (c : bytes).
Proof.
  intros A B C. split; [|split].
  - change (a ++ b ++ c ++ d) with ([] ++ a ++ b ++ c ++ d). apply slice_app_exact; auto.
  - apply slice_app_exact; auto.
  - rewrite (app_assoc a b). apply slice_app_exact; rewrite ?zlen_app; lia.
Qed.
Lemma apply_record o ooff woff r c f pos w rest :
  zlen o < 2^62 -> 0 <= woff -> 0 <= ooff -> 0 <= w -> record_ok r -> - 2^62 < r_adj r < 2^62 ->
  at_record ooff c pos w -> 0 <= pos -> ooff + pos + zlen (r_diff r) <= zlen o ->
  exists c1,
    brun o ooff woff (c, f) (enc_record r ++ rest) =
    brun o ooff woff (c1, fwrite_at f (woff + w) (byte_sums (slice (ooff + pos) (zlen (r_diff r)) o) (r_diff r) ++ r_extra r)) rest /\
    at_record ooff c1 (pos + zlen (r_diff r) + r_adj r) (w + zlen (r_diff r) + zlen (r_extra r)).
Proof.
  intros Ho Hw Hoo Hw0 (Rd & Re & Rl1 & Rl2 & Ra) Ra2 (Wf & Hwp & c0 & Z0 & S0 & C0 & O0 & W0) Hp Hr.
  destruct r as [d e a]. cbn [r_diff r_extra r_adj] in *. unfold enc_record. cbn [r_diff r_extra r_adj].
  pose proof (zlen_nonneg d); pose proof (zlen_nonneg e).
  set (k := enc_int (zlen d) ++ enc_int (zlen e) ++ enc_int a).
  assert (Lk : zlen k = 24) by (unfold k; rewrite !zlen_app, !zlen_enc_int; lia).
  replace ((enc_int (zlen d) ++ enc_int (zlen e) ++ enc_int a ++ d ++ e) ++ rest) with (k ++ d ++ e ++ rest)
    by (unfold k; rewrite <- !app_assoc; reflexivity).
  assert (Nk : k <> []) by (intros X; rewrite X in Lk; change (zlen (@nil Z)) with 0 in Lk; lia).
  rewrite brun_app.
  rewrite <- (brun_settle o ooff woff c f k c0 (zero_settle _ _ _ Z0) Nk).
  rewrite fill_full by (rewrite ?C0; auto; change (zlen (@nil Z)) with 0; lia).
  rewrite C0. cbn [app bind]. unfold read_ctrl. rewrite O0, W0.
  destruct (ctrl_slices (enc_int (zlen d)) (enc_int (zlen e)) (enc_int a) [] (zlen_enc_int _) (zlen_enc_int _) (zlen_enc_int _)) as (S1 & S2 & S3).
  rewrite app_nil_r in S1, S2, S3. fold k in S1, S2, S3. rewrite S1, S2, S3. clear S1 S2 S3.
  rewrite !offtin_enc by lia. clearbody k.
  (* the state after the diff bytes *)
  set (cd := mkBs BDiff k (zlen d) (zlen e) a pos w).
  assert (AD : exists c1,
     brun o ooff woff (cd, f) (d ++ e ++ rest) =
     brun o ooff woff (c1, fwrite_at f (woff + w) (add_bytes (slice (ooff + pos) (zlen d) o) d)) (e ++ rest) /\
     bwf c1 /\ bs_wpos c1 = w + zlen d /\
     zero_write ooff c1 = after_diff (mkBs BDiff k 0 (zlen e) a (pos + zlen d) (w + zlen d)) /\
     (e = [] -> d <> [] -> c1 = mkBs BFill [] 0 0 a (pos + zlen d + a) (w + zlen d))).
  { assert (Ed : d = [] \/ d <> []) by (destruct d; [left; reflexivity|right; discriminate]).
    destruct Ed as [Ed|Nd].
    - subst d. exists cd. change (zlen (@nil Z)) with 0 in *. cbn [app]. rewrite slice_neg_len by lia. cbn [add_bytes]. rewrite fwrite_at_nil.
      split; [reflexivity|]. split; [unfold bwf, cd; cbn; lia|]. split; [unfold cd; cbn; lia|].
      split; [|congruence].
      unfold zero_write, cd. cbn [bs_state bs_diff bs_opos]. change (0 <? 0) with false. cbv iota.
      unfold in_i64. destruct (Z.ltb_spec (ooff + pos) 0); [lia|].
      replace ((- 2 ^ 63 <=? ooff + pos) && (ooff + pos <? 2 ^ 63)) with true by lia. cbn [negb].
      rewrite !Z.add_0_r. reflexivity.
    - assert (1 <= zlen d) by (destruct d; [congruence|]; rewrite zlen_cons; pose proof (zlen_nonneg d); lia).
      rewrite brun_app, diff_run; unfold cd; cbn [bs_state bs_diff bs_wpos bs_opos bs_ctrl bs_extra bs_adj]; try lia; try assumption; [|reflexivity].
      destruct (Z.leb_spec (ooff + pos + zlen d) (zlen o)); [|lia].
      rewrite Z.sub_diag. unfold after_diff. cbn [bs_diff bs_extra]. change (0 =? 0) with true. cbv iota.
      destruct (Z.gtb_spec (zlen e) 0).
      + cbn [bind]. eexists. split; [reflexivity|].
        split; [unfold bwf; cbn; lia|]. split; [reflexivity|]. split; [reflexivity|].
        intros ->. change (zlen (@nil Z)) with 0 in *. lia.
      + unfold bs_next. cbn [bs_opos bs_adj bs_diff bs_extra bs_wpos].
        replace (in_i64 (pos + zlen d + a)) with true by (unfold in_i64; lia). cbn [bind].
        eexists. split; [reflexivity|]. split; [unfold bwf; cbn [bs_wpos bs_state bs_ctrl]; change (zlen (@nil Z)) with 0; lia|].
        split; [reflexivity|]. split; [reflexivity|]. intros -> _. reflexivity. }
  destruct AD as (c1 & E1 & W1 & P1 & Z1 & F1).
  rewrite E1, add_bytes_sums. clear E1.
  assert (Ls : zlen (byte_sums (slice (ooff + pos) (zlen d) o) d) = zlen d).
  { rewrite <- add_bytes_sums, zlen_add_bytes, zlen_slice_in by lia. lia. }
  unfold after_diff in Z1. cbn [bs_diff bs_extra bs_ctrl bs_adj bs_opos bs_wpos] in Z1. change (0 =? 0) with true in Z1. cbv iota in Z1.
  assert (Ee : e = [] \/ e <> []) by (destruct e; [left; reflexivity|right; discriminate]).
  destruct Ee as [Ee|Ne].
  - subst e. change (zlen (@nil Z)) with 0 in *. rewrite app_nil_r. cbn [app].
    exists c1. split; [reflexivity|]. rewrite Z.add_0_r.
    split; [exact W1|]. split; [exact P1|].
    cbn [Z.gtb Z.compare] in Z1. unfold bs_next in Z1. cbn [bs_opos bs_adj bs_diff bs_extra bs_wpos] in Z1.
    replace (in_i64 (pos + zlen d + a)) with true in Z1 by (unfold in_i64; lia).
    eexists. split; [exact Z1|]. cbn. auto.
  - assert (1 <= zlen e) by (destruct e; [congruence|]; rewrite zlen_cons; pose proof (zlen_nonneg e); lia).
    destruct (Z.gtb_spec (zlen e) 0); [|lia].
    match type of Z1 with _ = Ok ?x => set (ce := x) in * end.
    rewrite brun_app. rewrite <- (brun_settle o ooff woff c1 _ e ce (zero_settle _ _ _ Z1) Ne).
    rewrite extra_run; unfold ce; cbn [bs_state bs_diff bs_wpos bs_opos bs_ctrl bs_extra bs_adj]; try lia; try assumption; [|reflexivity].
    cbv zeta. cbn [bs_extra]. rewrite Z.sub_diag. change (0 =? 0) with true. cbv iota.
    unfold bs_next. cbn [bs_opos bs_adj bs_diff bs_extra bs_wpos].
    replace (in_i64 (pos + zlen d + a)) with true by (unfold in_i64; lia). cbn [bind].
    eexists. split.
    + rewrite fwrite_at_app by lia. rewrite Ls. replace (woff + (w + zlen d)) with (woff + w + zlen d) by lia. reflexivity.
    + apply at_record_fill; cbn [bs_state bs_ctrl bs_opos bs_wpos]; try reflexivity; lia.
Qed.
Lemma apply_patch o ooff woff part rs : forall c f pos w out,
  zlen o < 2^62 -> 0 <= woff -> 0 <= ooff -> 0 <= w ->
  slice ooff (zlen part) o = part -> ooff + zlen part <= zlen o ->
  Forall record_ok rs -> Forall (fun r => - 2^62 < r_adj r < 2^62) rs ->
  at_record ooff c pos w -> apply_records part pos rs = Some out ->
  exists c1 pos1, brun o ooff woff (c, f) (enc_patch rs) = Ok (c1, fwrite_at f (woff + w) out) /\
    at_record ooff c1 pos1 (w + zlen out).
Proof.
  intros c f pos w out Ho Hw Hoo. revert c f pos w out.
  induction rs as [|r rs IH]; intros c f pos w out Hw0 Hs Hl R1 R2 A E.
  - cbn [apply_records] in E. injection E as <-. exists c, pos. cbn [enc_patch map concat brun].
    change (zlen (@nil Z)) with 0. rewrite fwrite_at_nil, Z.add_0_r. auto.
  - cbn [apply_records] in E. apply Forall_cons_iff in R1 as [R1 R1']. apply Forall_cons_iff in R2 as [R2 R2'].
    destruct ((0 <=? pos) && (pos + zlen (r_diff r) <=? zlen part)) eqn:G; [|discriminate].
    destruct (apply_records part (pos + zlen (r_diff r) + r_adj r) rs) as [o1|] eqn:E1; [|discriminate].
    injection E as <-. pose proof (zlen_nonneg (r_diff r)); pose proof (zlen_nonneg (r_extra r)).
    destruct (apply_record o ooff woff r c f pos w (enc_patch rs)) as (c1 & B1 & A1); auto; [lia..|].
    unfold enc_patch. cbn [map concat]. fold (enc_patch rs). rewrite B1.
    set (f1 := fwrite_at f (woff + w) _).
    destruct (IH c1 f1 (pos + zlen (r_diff r) + r_adj r) (w + zlen (r_diff r) + zlen (r_extra r)) o1) as (c2 & p2 & B2 & A2); auto; [lia|].
    exists c2, p2. rewrite B2.
    assert (Es : slice (ooff + pos) (zlen (r_diff r)) o = slice pos (zlen (r_diff r)) part).
    { rewrite <- Hs. rewrite slice_slice by lia. f_equal. lia. }
    rewrite Es in *.
    assert (Ls : zlen (byte_sums (slice pos (zlen (r_diff r)) part) (r_diff r)) = zlen (r_diff r)).
    { rewrite <- add_bytes_sums, zlen_add_bytes, zlen_slice_in by lia. lia. }
    split.
    + unfold f1. rewrite Es. rewrite (app_assoc _ (r_extra r) o1). rewrite (fwrite_at_app f (woff + w) _ o1) by lia.
      rewrite zlen_app, Ls. replace (woff + w + (zlen (r_diff r) + zlen (r_extra r))) with (woff + (w + zlen (r_diff r) + zlen (r_extra r))) by lia. reflexivity.
    + rewrite !zlen_app, Ls. replace (w + (zlen (r_diff r) + (zlen (r_extra r) + zlen o1))) with
        (w + zlen (r_diff r) + zlen (r_extra r) + zlen o1) by lia. exact A2.
Qed.
Lemma at_record_final ooff c pos w : at_record ooff c pos w -> bspatch_final c = Ok w.
Proof.
  intros (W & P & c0 & Z0 & _). unfold bspatch_final. rewrite P.
  destruct (bs_state c) eqn:S; try reflexivity. unfold zero_write in Z0. rewrite S in Z0. discriminate.
Qed.
Lemma apply_patch_chunks o ooff woff blen part rs out f l :
  0 < blen -> zlen o < 2^62 -> 0 <= woff -> 0 <= ooff ->
  slice ooff (zlen part) o = part -> ooff + zlen part <= zlen o ->
  Forall record_ok rs -> Forall (fun r => - 2^62 < r_adj r < 2^62) rs ->
  apply_records part 0 rs = Some out -> concat l = enc_patch rs ->
  exists c1, bspatch_chunks o ooff woff blen bs_init f l = (c1, fwrite_at f woff out, Ok tt) /\
    bspatch_final c1 = Ok (zlen out).
Proof.
  intros Hb Ho Hw Hoo Hs Hl R1 R2 E El.
  destruct (apply_patch o ooff woff part rs bs_init f 0 0 out) as (c1 & p1 & B & A); auto; try lia; [apply at_record_init|].
  rewrite Z.add_0_r in B. rewrite Z.add_0_l in A. rewrite <- El in B.
  destruct A as (W1 & P1 & c0 & Z0 & S0 & C0 & O0 & W0).
  destruct (chunks_any o ooff woff blen l bs_init f c1 (fwrite_at f woff out) c0) as (c4 & E4 & D4); auto; [lia|exact bwf_init|].
  destruct (bspatch_chunks o ooff woff blen bs_init f l) as [[c5 f5] [[]|e| |]]; cbn [bout] in E4; try discriminate.
  injection E4 as -> ->. exists c4. split; [reflexivity|].
  destruct D4 as [->| ->].
  - apply (at_record_final ooff _ p1). split; [exact W1|]. split; [exact P1|]. exists c0. auto.
  - unfold bspatch_final. rewrite S0, W0. reflexivity.
Qed.
