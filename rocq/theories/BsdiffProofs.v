(* BsdiffProofs.v -- the generated patch, applied to the origin, gives the
   target; safety with a suffix array of one more entry *)
From Verif Require Import Base BaseLemmas BspatchModel BspatchSpec BspatchProofs BspatchApply BsdiffModel.
From Coq Require Import ZifyBool.

(* ---- array reads ----------------------------------------------------- *)
Lemma getz_in l i : 0 <= i < zlen l -> getz l i = Ok (nth (Z.to_nat i) l 0).
Proof.
  intros H. unfold getz. destruct (Z.ltb_spec i 0); [lia|].
  destruct (nth_error l (Z.to_nat i)) eqn:E.
  - rewrite (nth_error_nth _ _ 0 E). reflexivity.
  - apply nth_error_None in E. unfold zlen in H. lia.
Qed.
Lemma getz_out l i : ~ 0 <= i < zlen l -> getz l i = UB.
Proof.
  intros H. unfold getz. destruct (Z.ltb_spec i 0); [reflexivity|].
  destruct (nth_error l (Z.to_nat i)) eqn:E; [|reflexivity].
  assert (nth_error l (Z.to_nat i) <> None) by congruence. apply nth_error_Some in H1. unfold zlen in H. lia.
Qed.
Lemma getz_ok l i x : getz l i = Ok x -> 0 <= i < zlen l /\ x = nth (Z.to_nat i) l 0.
Proof.
  intros E. assert (D : 0 <= i < zlen l \/ ~ 0 <= i < zlen l) by lia. destruct D as [D|D].
  - rewrite getz_in in E by exact D. injection E as <-. auto.
  - rewrite getz_out in E by exact D. discriminate.
Qed.
Lemma bind_ok {A B} (x : res A) (f : A -> res B) y : bind x f = Ok y -> exists a, x = Ok a /\ f a = Ok y.
Proof. destruct x; cbn [bind]; try discriminate. eauto. Qed.

(* ---- bounds of the loop results -------------------------------------- *)
Lemma match_count_bound a b : 0 <= match_count a b <= Z.min (zlen a) (zlen b).
Proof.
  revert b; induction a as [|x a IH]; intros b; cbn [match_count].
  - change (zlen (@nil Z)) with 0. pose proof (zlen_nonneg b). lia.
  - destruct b as [|y b].
    + change (zlen (@nil Z)) with 0. rewrite zlen_cons. pose proof (zlen_nonneg a). lia.
    + rewrite !zlen_cons. specialize (IH b). destruct (x =? y); lia.
Qed.
Lemma s32_id x : 0 <= x < 2^31 -> s32 x = x.
Proof. intros H. unfold s32. rewrite Z.mod_small by lia. lia. Qed.
Lemma sa_suffix_ok o sa i p s : sa_suffix o sa i = Ok (p, s) -> 0 <= p <= zlen o /\ s = zdrop p o.
Proof.
  unfold sa_suffix. intros E. apply bind_ok in E as (q & E1 & E).
  destruct ((q <? 0) || (q >? zlen o)) eqn:C; [discriminate|]. injection E as <- <-. split; [lia|reflexivity].
Qed.
Definition small (o n : bytes) : Prop := Z.min (zlen o) (zlen n) < 2^31.
Lemma search_bound o n sa tl fuel : forall b e len pos, small o n -> zlen tl <= zlen n ->
  search fuel o sa tl b e = Ok (len, pos) -> 0 <= len <= zlen tl /\ 0 <= pos <= zlen o.
Proof.
  induction fuel as [|k IH]; intros b e len pos Sm Ht; cbn [search]; [discriminate|].
  destruct (e - b <? 2).
  - intros E. apply bind_ok in E as ([pb sb] & E1 & E). apply bind_ok in E as ([pe se] & E2 & E).
    apply sa_suffix_ok in E1 as [B1 ->]. apply sa_suffix_ok in E2 as [B2 ->].
    pose proof (match_count_bound (zdrop pb o) tl) as M1. pose proof (match_count_bound (zdrop pe o) tl) as M2.
    rewrite !zlen_zdrop in *. unfold small in Sm.
    unfold matchlen in E. rewrite !s32_id in E by lia.
    destruct (_ >? _) in E; injection E as <- <-; lia.
  - intros E. apply bind_ok in E as ([px sx] & E1 & E). destruct (memcmp_lt sx tl); eapply IH; eauto.
Qed.
Lemma fwd_bound o n c fuel : forall i s sf dsz r,
  0 <= dsz <= i -> (i <= 0 \/ (bd_lscan c + i <= bd_scan c /\ bd_lpos c + i <= zlen o)) ->
  fwd_loop o n fuel c i s sf dsz = Ok r ->
  0 <= r /\ (r = 0 \/ (bd_lscan c + r <= bd_scan c /\ bd_lpos c + r <= zlen o)).
Proof.
  induction fuel as [|k IH]; intros i s sf dsz r Hd Hi; cbn [fwd_loop].
  - destruct (_ && _); [discriminate|]. intros E. injection E as <-. lia.
  - destruct ((bd_lscan c + i <? bd_scan c) && (bd_lpos c + i <? zlen o)) eqn:C.
    + intros E. apply bind_ok in E as (a & _ & E). apply bind_ok in E as (b & _ & E).
      destruct (_ >? _) in E; eapply IH; try exact E; lia.
    + intros E. injection E as <-. lia.
Qed.
Lemma bwd_bound o n c fuel : forall i s sb lenb r,
  1 <= i -> 0 <= lenb < i -> (lenb = 0 \/ (bd_lscan c + lenb <= bd_scan c /\ lenb <= bd_pos c)) ->
  bwd_loop o n fuel c i s sb lenb = Ok r ->
  0 <= r /\ (r = 0 \/ (bd_lscan c + r <= bd_scan c /\ r <= bd_pos c)).
Proof.
  induction fuel as [|k IH]; intros i s sb lenb r H1 Hd Hi; cbn [bwd_loop].
  - destruct (_ && _); [discriminate|]. intros E. injection E as <-. lia.
  - destruct ((bd_scan c >=? bd_lscan c + i) && (bd_pos c >=? i)) eqn:C.
    + intros E. apply bind_ok in E as (a & _ & E). apply bind_ok in E as (b & _ & E).
      destruct (_ >? _) in E; eapply IH; try exact E; lia.
    + intros E. injection E as <-. lia.
Qed.
Lemma overlap_bound o n c fuel : forall dsz lenb ov i s ss lens r,
  0 <= lens <= i -> i <= ov ->
  overlap_loop o n fuel c dsz lenb ov i s ss lens = Ok r -> 0 <= r <= ov.
Proof.
  induction fuel as [|k IH]; intros dsz lenb ov i s ss lens r H1 H2; cbn [overlap_loop].
  - destruct (i <? ov); [discriminate|]. intros E. injection E as <-. lia.
  - destruct (Z.ltb_spec i ov).
    + intros E. apply bind_ok in E as (a & _ & E). apply bind_ok in E as (b & _ & E).
      apply bind_ok in E as (a2 & _ & E). apply bind_ok in E as (b2 & _ & E).
      destruct (_ >? _) in E; eapply IH; try exact E; lia.
    + intros E. injection E as <-. lia.
Qed.

(* ---- the bytes of a record ------------------------------------------- *)
(* what the diff bytes should be *)
Definition byte_diffs (a b : bytes) : bytes := map (fun p => (fst p - snd p) mod 256) (combine a b).
Lemma zlen_byte_diffs a b : zlen (byte_diffs a b) = Z.min (zlen a) (zlen b).
Proof. unfold byte_diffs. rewrite zlen_map. unfold zlen. rewrite combine_length. lia. Qed.
Lemma slice_cons (l : bytes) p n : 0 <= p < zlen l -> 1 <= n ->
  slice p n l = nth (Z.to_nat p) l 0 :: slice (p + 1) (n - 1) l.
Proof.
  intros H Hn. destruct (slice_one p l ltac:(lia) ltac:(lia)) as (y & E1 & E2).
  rewrite (E2 n Hn). f_equal.
  unfold slice, ztake, zdrop in E1.
  assert (N : nth 0 (firstn (Z.to_nat 1) (skipn (Z.to_nat p) l)) 0 = y) by (rewrite E1; reflexivity).
  rewrite <- N. change (Z.to_nat 1) with 1%nat.
  rewrite <- (firstn_skipn (Z.to_nat p) l) at 2.
  rewrite app_nth2 by (rewrite firstn_length; lia).
  rewrite firstn_length. unfold zlen in H. replace (Z.to_nat p - Nat.min (Z.to_nat p) (length l))%nat with 0%nat by lia.
  destruct (skipn (Z.to_nat p) l); reflexivity.
Qed.
Lemma diff_bytes_ok o n cnt : forall np op r,
  diff_bytes o n cnt np op = Ok r ->
  r = byte_diffs (slice np (Z.of_nat cnt) n) (slice op (Z.of_nat cnt) o).
Proof.
  induction cnt as [|k IH]; intros np op r; cbn [diff_bytes].
  - intros E. injection E as <-. change (Z.of_nat 0) with 0. rewrite !slice_neg_len by lia. reflexivity.
  - intros E. apply bind_ok in E as (a & Ea & E). apply bind_ok in E as (b & Eb & E). apply bind_ok in E as (q & Eq & E).
    injection E as <-. apply getz_ok in Ea as [Ba ->]. apply getz_ok in Eb as [Bb ->]. apply IH in Eq as ->.
    rewrite (slice_cons n np), (slice_cons o op) by lia.
    replace (Z.of_nat (S k) - 1) with (Z.of_nat k) by lia. reflexivity.
Qed.
Lemma diff_bytes_in o n cnt : forall np op,
  0 <= np -> np + Z.of_nat cnt <= zlen n -> 0 <= op -> op + Z.of_nat cnt <= zlen o ->
  exists r, diff_bytes o n cnt np op = Ok r.
Proof.
  induction cnt as [|k IH]; intros np op H1 H2 H3 H4; cbn [diff_bytes]; [eauto|].
  rewrite !getz_in by lia. cbn [bind].
  destruct (IH (np + 1) (op + 1)) as [r E]; try lia. rewrite E. cbn [bind]. eauto.
Qed.
Lemma combine_app_eq {A B} (a a2 : list A) (b b2 : list B) : length a = length b ->
  combine (a ++ a2) (b ++ b2) = combine a b ++ combine a2 b2.
Proof.
  revert b; induction a as [|x a IH]; intros [|y b] E; cbn in *; try discriminate; [reflexivity|].
  f_equal. apply IH. lia.
Qed.
Lemma diff_chunks_ok o n c fuel : forall i left r, 0 <= left -> 0 <= i ->
  0 <= bd_lscan c -> 0 <= bd_lpos c -> bd_lscan c + i + left <= zlen n -> bd_lpos c + i + left <= zlen o ->
  diff_chunks o n fuel c i left = Ok r ->
  concat r = byte_diffs (slice (bd_lscan c + i) left n) (slice (bd_lpos c + i) left o).
Proof.
  induction fuel as [|k IH]; intros i left r Hl Hi Hs Hp B1 B2; cbn [diff_chunks].
  - destruct (Z.eqb_spec left 0) as [->|]; [|discriminate]. intros E. injection E as <-.
    rewrite !slice_neg_len by lia. reflexivity.
  - destruct (Z.eqb_spec left 0) as [->|]; [intros E; injection E as <-; rewrite !slice_neg_len by lia; reflexivity|].
    intros E. apply bind_ok in E as (b & Eb & E). apply bind_ok in E as (q & Eq & E). injection E as <-.
    set (m := Z.min left 4096) in *. assert (Hm : 1 <= m <= left) by lia.
    apply diff_bytes_ok in Eb. rewrite Z2Nat.id in Eb by lia. subst b.
    apply IH in Eq; try lia. cbn [concat]. rewrite Eq.
    replace left with (m + (left - m)) at 3 4 by lia. rewrite !slice_split by lia.
    replace (bd_lscan c + (i + m)) with (bd_lscan c + i + m) by lia.
    replace (bd_lpos c + (i + m)) with (bd_lpos c + i + m) by lia.
    unfold byte_diffs. rewrite combine_app_eq, map_app; [reflexivity|].
    assert (L1 := zlen_slice_in (bd_lscan c + i) m n ltac:(lia) ltac:(lia) ltac:(lia)).
    assert (L2 := zlen_slice_in (bd_lpos c + i) m o ltac:(lia) ltac:(lia) ltac:(lia)).
    unfold zlen in L1, L2. lia.
Qed.
Lemma diff_chunks_in o n c fuel : forall i left, 0 <= left -> (Z.to_nat left <= fuel)%nat -> 0 <= i ->
  0 <= bd_lscan c -> 0 <= bd_lpos c -> bd_lscan c + i + left <= zlen n -> bd_lpos c + i + left <= zlen o ->
  exists r, diff_chunks o n fuel c i left = Ok r.
Proof.
  induction fuel as [|k IH]; intros i left Hl Hf Hi Hs Hp B1 B2; cbn [diff_chunks].
  - destruct (Z.eqb_spec left 0); [eauto|lia].
  - destruct (Z.eqb_spec left 0); [eauto|].
    set (m := Z.min left 4096) in *. assert (Hm : 1 <= m <= left) by lia.
    destruct (diff_bytes_in o n (Z.to_nat m) (bd_lscan c + i) (bd_lpos c + i)) as [b Eb]; try lia.
    rewrite Eb. cbn [bind]. destruct (IH (i + m) (left - m)) as [q Eq]; try lia. rewrite Eq. cbn [bind]. eauto.
Qed.
Lemma byte_sums_diffs a b : bytes_ok a -> length a = length b -> byte_sums b (byte_diffs a b) = a.
Proof.
  unfold byte_sums, byte_diffs. revert b; induction a as [|x a IH]; intros [|y b] Ha L; cbn in L; try discriminate; [reflexivity|].
  apply bytes_ok_cons in Ha as [Hx Ha]. cbn [combine map fst snd]. f_equal; [|apply IH; [exact Ha|lia]].
  unfold byte_ok in Hx. rewrite Zplus_mod_idemp_r. replace (y + (x - y)) with x by lia. apply Z.mod_small; lia.
Qed.
Lemma byte_diffs_ok a b : bytes_ok (byte_diffs a b).
Proof.
  unfold byte_diffs, bytes_ok. apply Forall_map, Forall_forall. intros p _. unfold byte_ok. apply Z.mod_pos_bound. lia.
Qed.

(* ---- the records written so far -------------------------------------- *)
(* apply_records, also giving the origin position reached *)
Fixpoint apply_pos (o : bytes) (pos : Z) (rs : list precord) : option (bytes * Z) :=
  match rs with
  | [] => Some ([], pos)
  | r :: rest =>
      let m := zlen (r_diff r) in
      if (0 <=? pos) && (pos + m <=? zlen o) then
        match apply_pos o (pos + m + r_adj r) rest with
        | Some (out, p) => Some (byte_sums (slice pos m o) (r_diff r) ++ r_extra r ++ out, p)
        | None => None
        end
      else None
  end.
Lemma apply_pos_records o rs : forall pos out p, apply_pos o pos rs = Some (out, p) -> apply_records o pos rs = Some out.
Proof.
  induction rs as [|r rs IH]; intros pos out p; cbn [apply_pos apply_records].
  - intros E. injection E as <- _. reflexivity.
  - destruct (_ && _); [|discriminate]. destruct (apply_pos _ _ rs) as [[o1 p1]|] eqn:E; [|discriminate].
    intros X. injection X as <- <-. rewrite (IH _ _ _ E). reflexivity.
Qed.
Lemma apply_pos_snoc o rs r : forall pos out p,
  apply_pos o pos rs = Some (out, p) -> 0 <= p -> p + zlen (r_diff r) <= zlen o ->
  apply_pos o pos (rs ++ [r]) =
  Some (out ++ byte_sums (slice p (zlen (r_diff r)) o) (r_diff r) ++ r_extra r, p + zlen (r_diff r) + r_adj r).
Proof.
  induction rs as [|r0 rs IH]; intros pos out p; cbn [apply_pos app].
  - intros E H1 H2. injection E as <- <-. destruct ((0 <=? pos) && (pos + zlen (r_diff r) <=? zlen o)) eqn:C; [|lia].
    rewrite app_nil_r. reflexivity.
  - destruct (_ && _); [|discriminate]. destruct (apply_pos _ _ rs) as [[o1 p1]|] eqn:E; [|discriminate].
    intros X H1 H2. injection X as <- <-. rewrite (IH _ _ _ E H1 H2). rewrite <- !app_assoc. reflexivity.
Qed.
Definition adj_ok (r : precord) : Prop := - 2^62 < r_adj r < 2^62.
Lemma enc_patch_snoc rs r : enc_patch (rs ++ [r]) = enc_patch rs ++ enc_record r.
Proof. unfold enc_patch. rewrite map_app, concat_app. cbn [map concat]. rewrite app_nil_r. reflexivity. Qed.

(* positions are inside the files and what was written reproduces the target up
   to last_scan *)
Definition bd_inv (o n : bytes) (c : bdctx) : Prop :=
  0 <= bd_lscan c <= bd_scan c /\ bd_scan c <= zlen n /\
  0 <= bd_pos c <= zlen o /\ 0 <= bd_lpos c <= zlen o /\ 0 <= bd_scan c + bd_loff c.
Definition bd_written (o n : bytes) (c : bdctx) : Prop :=
  exists rs, concat (bd_out c) = enc_patch rs /\ Forall record_ok rs /\ Forall adj_ok rs /\
    apply_pos o 0 rs = Some (ztake (bd_lscan c) n, bd_lpos c).
Lemma bd_init_inv o n : bd_inv o n bd_init /\ bd_written o n bd_init.
Proof.
  split.
  - unfold bd_inv, bd_init; cbn. pose proof (zlen_nonneg o); pose proof (zlen_nonneg n). lia.
  - exists []. cbn. repeat split; constructor.
Qed.

Section Write.
Variables (o n : bytes).
Hypothesis (Hn : bytes_ok n) (Bo : zlen o < 2^62) (Bn : zlen n < 2^62).
Lemma write_diff_ok c c1 : bd_inv o n c -> bd_written o n c ->
  write_diff o n c = Ok c1 ->
  bd_inv o n c1 /\ bd_written o n c1 /\ bd_scan c1 = bd_scan c /\ bd_len c1 = bd_len c /\
  (bd_scan c = zlen n -> bd_lscan c1 = zlen n).
Proof.
  intros (I1 & I2 & I5 & I6 & I7) (rs & W1 & W2 & W2' & W3). unfold write_diff.
  intros E. apply bind_ok in E as (dsz0 & E0 & E). apply bind_ok in E as (lenb0 & E1 & E).
  apply fwd_bound in E0; [|lia|lia].
  assert (B1 : 0 <= lenb0 /\ (lenb0 = 0 \/ (bd_lscan c + lenb0 <= bd_scan c /\ lenb0 <= bd_pos c)) /\
               (bd_scan c = zlen n -> lenb0 = 0)).
  { destruct (Z.ltb_spec (bd_scan c) (zlen n)).
    - apply bwd_bound in E1; lia.
    - injection E1 as <-. lia. }
  clear E1. set (ov := bd_lscan c + dsz0 - (bd_scan c - lenb0)) in *.
  apply bind_ok in E as ([dsz lenb] & E2 & E).
  assert (B2 : 0 <= dsz <= dsz0 /\ 0 <= lenb <= lenb0 /\ bd_lscan c + dsz <= bd_scan c - lenb).
  { destruct (Z.gtb_spec ov 0).
    - apply bind_ok in E2 as (lens & E3 & E2). apply overlap_bound in E3; [|lia|lia]. injection E2 as <- <-. lia.
    - injection E2 as <- <-. lia. }
  clear E2. clearbody ov.
  set (xs := bd_scan c - lenb - (bd_lscan c + dsz)) in *.
  apply bind_ok in E as (k1 & K1 & E). apply bind_ok in E as (k2 & K2 & E). apply bind_ok in E as (k3 & K3 & E).
  rewrite offtout_enc in K1, K2, K3 by lia. injection K1 as <-. injection K2 as <-. injection K3 as <-.
  apply bind_ok in E as (chunks & E3 & E). destruct (Z.ltb_spec dsz 0); [lia|].
  apply diff_chunks_ok in E3; [|lia..]. rewrite !Z.add_0_r in E3.
  apply bind_ok in E as (extra & E4 & E).
  assert (Ex : concat extra = slice (bd_lscan c + dsz) xs n).
  { destruct (Z.eqb_spec xs 0) as [->|].
    - injection E4 as <-. rewrite slice_neg_len by lia. reflexivity.
    - destruct (_ || _); [discriminate|]. injection E4 as <-. cbn [concat]. apply app_nil_r. }
  clear E4. injection E as <-.
  assert (L1 := zlen_slice_in (bd_lscan c) dsz n ltac:(lia) ltac:(lia) ltac:(lia)).
  assert (L2 := zlen_slice_in (bd_lpos c) dsz o ltac:(lia) ltac:(lia) ltac:(lia)).
  set (d := byte_diffs (slice (bd_lscan c) dsz n) (slice (bd_lpos c) dsz o)) in *.
  assert (Ld : zlen d = dsz) by (unfold d; rewrite zlen_byte_diffs, L1, L2; lia).
  set (x := slice (bd_lscan c + dsz) xs n) in *.
  assert (Lx : zlen x = xs) by (apply zlen_slice_in; lia).
  set (adj := bd_pos c - lenb - (bd_lpos c + dsz)) in *.
  split; [|split; [|split; [|split]]]; cbn [bd_scan bd_len bd_lscan]; try reflexivity.
  - unfold bd_inv; cbn [bd_scan bd_len bd_lscan bd_pos bd_lpos bd_loff]. lia.
  - exists (rs ++ [mkRec d x adj]). cbn [bd_out bd_lscan bd_lpos].
    split; [|split; [|split]].
    + rewrite enc_patch_snoc, concat_app. cbn [concat app]. rewrite concat_app, W1, E3, Ex.
      unfold enc_record; cbn [r_diff r_extra r_adj]. rewrite Ld, Lx, <- ?app_assoc. reflexivity.
    + apply Forall_app. split; [exact W2|]. constructor; [|constructor]. unfold record_ok; cbn [r_diff r_extra r_adj].
      split; [apply byte_diffs_ok|]. split; [apply bytes_ok_slice; exact Hn|]. lia.
    + apply Forall_app. split; [exact W2'|]. constructor; [|constructor]. unfold adj_ok; cbn [r_adj]. lia.
    + rewrite (apply_pos_snoc o rs (mkRec d x adj) _ _ _ W3); cbn [r_diff r_extra r_adj]; [|lia|lia].
      rewrite Ld. f_equal. f_equal; [|unfold adj; lia].
      unfold d. rewrite byte_sums_diffs; [|apply bytes_ok_slice; exact Hn|unfold zlen in L1, L2; lia].
      unfold x. rewrite <- slice_split by lia.
      rewrite <- (slice_0 (bd_lscan c)), <- (slice_0 (bd_scan c - lenb)).
      replace (bd_scan c - lenb) with (bd_lscan c + (dsz + xs)) by lia.
      rewrite (slice_split 0 (bd_lscan c) (dsz + xs)) by lia. reflexivity.
  - lia.
Qed.

Variable sa : list Z.
Hypothesis Sm : small o n.
Lemma scan_loop_ok fuel : forall c scsc score c1 sc1,
  bd_inv o n c -> bd_written o n c -> scan_loop o n sa fuel c scsc score = Ok (c1, sc1) ->
  bd_inv o n c1 /\ bd_written o n c1 /\ bd_scan c <= bd_scan c1 /\
  (bd_scan c1 < zlen n -> 0 <= bd_len c1 /\ bd_scan c1 + bd_len c1 <= zlen n).
Proof.
  induction fuel as [|k IH]; intros c scsc score c1 sc1 I W; cbn [scan_loop].
  - destruct (Z.ltb_spec (bd_scan c) (zlen n)); [discriminate|]. intros E. injection E as <- <-.
    split; [exact I|]. split; [exact W|]. lia.
  - destruct I as (I1 & I2 & I5 & I6 & I7). destruct (Z.ltb_spec (bd_scan c) (zlen n)).
    2:{ intros E. injection E as <- <-. split; [unfold bd_inv; lia|]. split; [exact W|]. lia. }
    destruct (Z.ltb_spec (bd_scan c) 0) as [|_]; [discriminate|].
    intros E. apply bind_ok in E as ([len pos] & E1 & E).
    apply (search_bound o n) in E1; [|exact Sm|rewrite zlen_zdrop; lia]. rewrite zlen_zdrop in E1.
    cbn [bd_loff bd_scan bd_lscan bd_lpos bd_out] in E.
    apply bind_ok in E as (sc2 & _ & E).
    destruct (((len =? sc2) && negb (len =? 0)) || (len >? sc2 + 8)).
    + injection E as <- <-. cbn [bd_scan bd_len]. split; [unfold bd_inv; cbn [bd_scan bd_len bd_lscan bd_pos bd_lpos bd_loff]; lia|].
      split; [exact W|]. lia.
    + apply bind_ok in E as (hit & _ & E). apply IH in E.
      * cbn [bd_scan] in E. destruct E as (A & B & C & D). split; [exact A|]. split; [exact B|]. lia.
      * unfold bd_inv; cbn [bd_scan bd_len bd_lscan bd_pos bd_lpos bd_loff]. lia.
      * exact W.
Qed.
End Write.

(* ---- files of any size ------------------------------------------------ *)
(* a match of 2 GiB or more comes out as a wrapped, possibly negative, length;
   the scan position may then move back *)
Lemma s32_le x : 0 <= x -> s32 x <= x.
Proof. intros H. unfold s32. pose proof (Z.mod_le (x + 2147483648) 4294967296 ltac:(lia) ltac:(lia)). lia. Qed.
Lemma search_any o sa tl fuel : forall b e len pos,
  search fuel o sa tl b e = Ok (len, pos) -> len <= zlen tl /\ 0 <= pos <= zlen o.
Proof.
  induction fuel as [|k IH]; intros b e len pos; cbn [search]; [discriminate|].
  destruct (e - b <? 2).
  - intros E. apply bind_ok in E as ([pb sb] & E1 & E). apply bind_ok in E as ([pe se] & E2 & E).
    apply sa_suffix_ok in E1 as [B1 ->]. apply sa_suffix_ok in E2 as [B2 ->].
    pose proof (match_count_bound (zdrop pb o) tl) as M1. pose proof (match_count_bound (zdrop pe o) tl) as M2.
    unfold matchlen in E. pose proof (s32_le (match_count (zdrop pb o) tl) ltac:(lia)). pose proof (s32_le (match_count (zdrop pe o) tl) ltac:(lia)).
    destruct (_ >? _) in E; injection E as <- <-; lia.
  - intros E. apply bind_ok in E as ([px sx] & E1 & E). destruct (memcmp_lt sx tl); eapply IH; eauto.
Qed.
(* the overlap loop has looked at every byte it covers *)
Lemma overlap_reads o n c fuel : forall dsz lenb ov i s ss lens r, i < ov ->
  overlap_loop o n fuel c dsz lenb ov i s ss lens = Ok r -> bd_pos c - lenb + ov <= zlen o.
Proof.
  induction fuel as [|k IH]; intros dsz lenb ov i s ss lens r H2; cbn [overlap_loop].
  - destruct (Z.ltb_spec i ov); [discriminate|lia].
  - destruct (Z.ltb_spec i ov); [|lia].
    intros E. apply bind_ok in E as (a & _ & E). apply bind_ok in E as (b & _ & E).
    apply bind_ok in E as (a2 & _ & E). apply bind_ok in E as (b2 & Eb & E).
    destruct (Z.eq_dec (i + 1) ov) as [X|X].
    + apply getz_ok in Eb as [Eb _]. lia.
    + destruct (_ >? _) in E; eapply IH; try exact E; lia.
Qed.
Definition bd_any (o n : bytes) (c : bdctx) : Prop :=
  0 <= bd_lscan c <= zlen n /\ bd_scan c <= zlen n /\ 0 <= bd_pos c <= zlen o /\ 0 <= bd_lpos c <= zlen o.
Section Any.
Variables (o n : bytes).
Hypothesis (Hn : bytes_ok n) (Bo : zlen o < 2^62) (Bn : zlen n < 2^62).
Lemma write_diff_back c c1 : bd_any o n c -> bd_scan c < bd_lscan c -> bd_written o n c ->
  write_diff o n c = Ok c1 ->
  bd_any o n c1 /\ bd_written o n c1 /\ bd_scan c1 = bd_scan c /\ bd_len c1 = bd_len c.
Proof.
  intros (I1 & I2 & I5 & I6) Back (rs & W1 & W2 & W2' & W3). unfold write_diff.
  intros E. apply bind_ok in E as (dsz0 & E0 & E). apply bind_ok in E as (lenb0 & E1 & E).
  apply fwd_bound in E0; [|lia|lia]. assert (dsz0 = 0) as -> by lia.
  assert (lenb0 = 0) as ->.
  { destruct (bd_scan c <? zlen n); [|congruence]. apply bwd_bound in E1; lia. }
  clear E0 E1. set (ov := bd_lscan c + 0 - (bd_scan c - 0)) in *. assert (Eov : ov = bd_lscan c - bd_scan c) by (unfold ov; lia).
  destruct (Z.gtb_spec ov 0); [|lia].
  apply bind_ok in E as ([dsz lenb] & E2 & E). apply bind_ok in E2 as (lens & E3 & E2).
  apply overlap_reads in E3 as Rd; [|lia]. apply overlap_bound in E3; [|lia|lia]. injection E2 as <- <-.
  clearbody ov. subst ov.
  apply bind_ok in E as (k1 & K1 & E). apply bind_ok in E as (k2 & K2 & E). apply bind_ok in E as (k3 & K3 & E).
  apply bind_ok in E as (chunks & E3' & E).
  match type of E3' with (if ?x <? 0 then _ else _) = _ => destruct (Z.ltb_spec x 0); [discriminate|] end.
  assert (lens = bd_lscan c - bd_scan c) as -> by lia. clear E3.
  replace (bd_lscan c - bd_scan c - (bd_lscan c - bd_scan c)) with 0 in * by lia.
  replace (bd_scan c - - (bd_lscan c - bd_scan c) - (bd_lscan c + 0)) with 0 in * by lia.
  replace (bd_pos c - - (bd_lscan c - bd_scan c)) with (bd_pos c + (bd_lscan c - bd_scan c)) in * by lia.
  replace (bd_scan c - - (bd_lscan c - bd_scan c)) with (bd_lscan c) in * by lia.
  rewrite offtout_enc in K1, K2, K3 by lia. injection K1 as <-. injection K2 as <-. injection K3 as <-.
  assert (chunks = []) as ->.
  { assert (X : forall fuel, diff_chunks o n fuel c 0 0 = Ok []) by (intros [|]; reflexivity).
    rewrite X in E3'. injection E3' as <-. reflexivity. }
  apply bind_ok in E as (extra & E4 & E). cbn [Z.eqb] in E4. injection E4 as <-. injection E as <-.
  split; [|split; [|split]]; cbn [bd_scan bd_len bd_lscan]; try reflexivity.
  - unfold bd_any; cbn [bd_scan bd_len bd_lscan bd_pos bd_lpos bd_loff]. lia.
  - set (adj := bd_pos c + (bd_lscan c - bd_scan c) - (bd_lpos c + 0)) in *.
    exists (rs ++ [mkRec [] [] adj]). cbn [bd_out bd_lscan bd_lpos].
    split; [|split; [|split]].
    + rewrite enc_patch_snoc, concat_app. cbn [concat app]. rewrite W1.
      unfold enc_record; cbn [r_diff r_extra r_adj]. rewrite ?app_nil_r, <- ?app_assoc. reflexivity.
    + apply Forall_app. split; [exact W2|]. constructor; [|constructor]. unfold record_ok; cbn [r_diff r_extra r_adj].
      split; [constructor|]. split; [constructor|]. change (zlen (@nil Z)) with 0. subst adj. lia.
    + apply Forall_app. split; [exact W2'|]. constructor; [|constructor]. unfold adj_ok; cbn [r_adj]. subst adj. lia.
    + rewrite (apply_pos_snoc o rs (mkRec [] [] adj) _ _ _ W3); cbn [r_diff r_extra r_adj]; change (zlen (@nil Z)) with 0; [|lia|lia].
      rewrite slice_neg_len by lia. cbn [byte_sums combine map app]. rewrite app_nil_r. f_equal. f_equal. unfold adj. lia.
Qed.
Lemma write_diff_any c c1 : bd_any o n c -> bd_written o n c ->
  write_diff o n c = Ok c1 ->
  bd_any o n c1 /\ bd_written o n c1 /\ bd_scan c1 = bd_scan c /\ bd_len c1 = bd_len c /\
  (bd_scan c = zlen n -> bd_lscan c1 = zlen n).
Proof.
  intros I W E. pose proof I as (I1 & I2 & I5 & I6). destruct (Z.lt_ge_cases (bd_scan c) (bd_lscan c)).
  - destruct (write_diff_back c c1 I H W E) as (A & B & C & D). do 4 (split; [assumption|]). lia.
  - assert (X : exists k, bd_inv o n (mkBd (bd_scan c) (bd_len c) (bd_pos c) (bd_lscan c) (bd_lpos c) k (bd_out c))).
    { exists 0. unfold bd_inv. cbn [bd_scan bd_len bd_lscan bd_pos bd_lpos bd_loff]. lia. }
    destruct X as (k & J).
    assert (Loff : write_diff o n (mkBd (bd_scan c) (bd_len c) (bd_pos c) (bd_lscan c) (bd_lpos c) k (bd_out c)) = Ok c1).
    { rewrite <- E. clear. destruct c as [sc ln ps ls lp lo ou]. unfold write_diff. cbn [bd_scan bd_len bd_lscan bd_pos bd_lpos bd_loff bd_out].
      assert (F : forall fuel i s sf d, fwd_loop o n fuel (mkBd sc ln ps ls lp k ou) i s sf d = fwd_loop o n fuel (mkBd sc ln ps ls lp lo ou) i s sf d).
      { induction fuel as [|f IH]; intros; cbn [fwd_loop bd_scan bd_lscan bd_lpos]; [reflexivity|].
        destruct (_ && _); [|reflexivity]. destruct (getz o (lp + i)); cbn [bind]; try reflexivity. destruct (getz n (ls + i)); cbn [bind]; try reflexivity.
        destruct (_ >? _); apply IH. }
      assert (B : forall fuel i s sf d, bwd_loop o n fuel (mkBd sc ln ps ls lp k ou) i s sf d = bwd_loop o n fuel (mkBd sc ln ps ls lp lo ou) i s sf d).
      { induction fuel as [|f IH]; intros; cbn [bwd_loop bd_scan bd_lscan bd_pos]; [reflexivity|].
        destruct (_ && _); [|reflexivity]. destruct (getz o (ps - i)); cbn [bind]; try reflexivity. destruct (getz n (sc - i)); cbn [bind]; try reflexivity.
        destruct (_ >? _); apply IH. }
      assert (V : forall fuel d l v i s ss e, overlap_loop o n fuel (mkBd sc ln ps ls lp k ou) d l v i s ss e = overlap_loop o n fuel (mkBd sc ln ps ls lp lo ou) d l v i s ss e).
      { induction fuel as [|f IH]; intros; cbn [overlap_loop bd_scan bd_lscan bd_pos bd_lpos]; [reflexivity|].
        destruct (_ <? _); [|reflexivity]. destruct (getz n (ls + d - v + i)); cbn [bind]; try reflexivity.
        destruct (getz o (lp + d - v + i)); cbn [bind]; try reflexivity. destruct (getz n (sc - l + i)); cbn [bind]; try reflexivity.
        destruct (getz o (ps - l + i)); cbn [bind]; try reflexivity. destruct (_ >? _); apply IH. }
      assert (D : forall fuel i l, diff_chunks o n fuel (mkBd sc ln ps ls lp k ou) i l = diff_chunks o n fuel (mkBd sc ln ps ls lp lo ou) i l).
      { induction fuel as [|f IH]; intros; cbn [diff_chunks bd_lscan bd_lpos]; [reflexivity|].
        destruct (l =? 0); [reflexivity|]. destruct (diff_bytes _ _ _ _ _); cbn [bind]; try reflexivity. rewrite IH. reflexivity. }
      rewrite F. destruct (fwd_loop _ _ _ _ _ _ _ _) as [d0| | |]; cbn [bind]; try reflexivity. rewrite B.
      destruct (if sc <? zlen n then _ else _) as [l0| | |]; cbn [bind]; try reflexivity. rewrite V.
      destruct (if _ >? 0 then _ else _) as [[d1 l1]| | |]; cbn [bind]; try reflexivity. rewrite D. reflexivity. }
    apply write_diff_ok in Loff; auto. destruct Loff as ((J1 & J2 & J5 & J6 & J7) & W' & S' & L' & F').
    split; [unfold bd_any; lia|]. do 3 (split; [assumption|]). exact F'.
Qed.
Variable sa : list Z.
Lemma scan_loop_any fuel : forall c scsc score c1 sc1,
  bd_any o n c -> bd_written o n c -> scan_loop o n sa fuel c scsc score = Ok (c1, sc1) ->
  bd_any o n c1 /\ bd_written o n c1 /\ (bd_scan c1 < zlen n -> bd_scan c1 + bd_len c1 <= zlen n).
Proof.
  induction fuel as [|k IH]; intros c scsc score c1 sc1 I W; cbn [scan_loop].
  - destruct (Z.ltb_spec (bd_scan c) (zlen n)); [discriminate|]. intros E. injection E as <- <-.
    split; [exact I|]. split; [exact W|]. lia.
  - destruct I as (I1 & I2 & I5 & I6). destruct (Z.ltb_spec (bd_scan c) (zlen n)).
    2:{ intros E. injection E as <- <-. split; [unfold bd_any; lia|]. split; [exact W|]. lia. }
    destruct (Z.ltb_spec (bd_scan c) 0) as [|_]; [discriminate|].
    intros E. apply bind_ok in E as ([len pos] & E1 & E).
    apply search_any in E1. rewrite zlen_zdrop in E1.
    cbn [bd_loff bd_scan bd_lscan bd_lpos bd_out] in E.
    apply bind_ok in E as (sc2 & _ & E).
    destruct (((len =? sc2) && negb (len =? 0)) || (len >? sc2 + 8)).
    + injection E as <- <-. cbn [bd_scan bd_len]. split; [unfold bd_any; cbn [bd_scan bd_len bd_lscan bd_pos bd_lpos bd_loff]; lia|].
      split; [exact W|]. lia.
    + apply bind_ok in E as (hit & _ & E). apply IH in E; [exact E| |exact W].
      unfold bd_any; cbn [bd_scan bd_len bd_lscan bd_pos bd_lpos bd_loff]. lia.
Qed.
Lemma main_loop_any fuel : forall c c1,
  bd_any o n c -> bd_written o n c -> (bd_scan c < zlen n -> bd_scan c + bd_len c <= zlen n) ->
  (bd_scan c = zlen n -> bd_lscan c = zlen n) ->
  main_loop o n sa fuel c = Ok c1 -> bd_written o n c1 /\ bd_lscan c1 = zlen n.
Proof.
  induction fuel as [|k IH]; intros c c1 I W L F; cbn [main_loop].
  - destruct (Z.ltb_spec (bd_scan c) (zlen n)); [discriminate|]. intros E. injection E as <-.
    destruct I as (I1 & I2 & I5 & I6). split; [exact W|]. apply F. lia.
  - destruct (Z.ltb_spec (bd_scan c) (zlen n)) as [G|G].
    2:{ intros E. injection E as <-. destruct I as (I1 & I2 & I5 & I6). split; [exact W|]. apply F. lia. }
    specialize (L G). intros E. apply bind_ok in E as ([c2 sc] & E1 & E). apply bind_ok in E as (c3 & E2 & E).
    destruct I as (I1 & I2 & I5 & I6).
    apply scan_loop_any in E1; [|unfold bd_any; cbn [bd_scan bd_len bd_lscan bd_pos bd_lpos bd_loff]; lia|exact W].
    destruct E1 as (J & W2 & N2).
    destruct (negb (bd_len c2 =? sc) || (bd_scan c2 =? zlen n)) eqn:C.
    + apply write_diff_any in E2; [|exact J|exact W2]. destruct E2 as (J3 & W3 & S3 & L3 & F3).
      apply IH in E; auto.
      * intros X. rewrite S3, L3 in *. apply N2. exact X.
      * intros X. apply F3. lia.
    + injection E2 as <-. apply IH in E; auto. intros X. exfalso. lia.
Qed.
Lemma bsdiff_chunks_ok l : bsdiff_chunks o n sa = Ok l ->
  exists rs, concat l = enc_patch rs /\ Forall record_ok rs /\ Forall adj_ok rs /\ apply_records o 0 rs = Some n.
Proof.
  unfold bsdiff_chunks. intros E. apply bind_ok in E as (c & E1 & E). injection E as <-.
  destruct (bd_init_inv o n) as [I0 W].
  assert (I : bd_any o n bd_init) by (destruct I0 as (? & ? & ? & ? & ?); unfold bd_any; lia).
  apply main_loop_any in E1; auto.
  - destruct E1 as ((rs & A & B & C & D) & L). exists rs. rewrite L, ztake_all in D by lia.
    repeat split; auto. eapply apply_pos_records; eauto.
  - cbn. pose proof (zlen_nonneg n). lia.
Qed.
End Any.
