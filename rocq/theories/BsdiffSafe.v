(* BsdiffSafe.v -- differencing terminates and stays inside its arrays when the
   suffix array has one entry more than the origin has bytes *)
From Verif Require Import Base BaseLemmas BspatchModel BspatchSpec BspatchProofs BspatchApply BsdiffModel BsdiffProofs.
From Coq Require Import ZifyBool.

(* ---- the binary search ------------------------------------------------ *)
Definition sa_good (o : bytes) (sa : list Z) : Prop :=
  zlen sa = zlen o + 1 /\ Forall (fun p => 0 <= p <= zlen o) sa.
(* what the code has: as many entries as origin bytes *)
Definition sa_real (o : bytes) (sa : list Z) : Prop :=
  zlen sa = zlen o /\ Forall (fun p => 0 <= p < zlen o) sa.
Lemma sa_suffix_at o sa i : 0 <= i < zlen sa -> Forall (fun p => 0 <= p <= zlen o) sa ->
  sa_suffix o sa i = Ok (znth 0 i sa, zdrop (znth 0 i sa) o).
Proof.
  intros H F. unfold sa_suffix. rewrite getz_in by lia. cbn [bind]. unfold znth.
  set (p := nth (Z.to_nat i) sa 0).
  assert (P : 0 <= p <= zlen o).
  { rewrite Forall_forall in F. apply F. apply nth_In. unfold zlen in *. lia. }
  destruct ((p <? 0) || (p >? zlen o)) eqn:C; [lia|]. reflexivity.
Qed.
Lemma search_in o sa tl fuel : sa_good o sa -> forall b e, 0 <= b <= e -> e <= zlen o -> (Z.to_nat (e - b) <= fuel)%nat -> (1 <= fuel)%nat ->
  exists r, search fuel o sa tl b e = Ok r.
Proof.
  intros [L F]. induction fuel as [|k IH]; intros b e H1 H2 H3 H4; [lia|]. cbn [search].
  destruct (Z.ltb_spec (e - b) 2).
  - rewrite !sa_suffix_at by (try exact F; lia). cbn [bind]. eauto.
  - assert (M := Z.div_mod (e - b) 2 ltac:(lia)). assert (M2 := Z.mod_pos_bound (e - b) 2 ltac:(lia)).
    set (q := (e - b) / 2) in *. clearbody q.
    rewrite sa_suffix_at by (try exact F; lia). cbn [bind].
    destruct (memcmp_lt _ tl); apply IH; lia.
Qed.
Lemma sa_real_le o sa : sa_real o sa -> Forall (fun p => 0 <= p <= zlen o) sa.
Proof. intros [_ F]. eapply Forall_impl; [|exact F]. cbn. lia. Qed.
(* with the real array the search is fine unless it runs into the right end *)
Lemma search_real o sa tl fuel : sa_real o sa ->
  memcmp_lt (zdrop (znth 0 (zlen o - 1) sa) o) tl = false ->
  forall b e, 0 <= b <= e -> e <= zlen o -> (e = zlen o -> b + 1 < e) -> (Z.to_nat (e - b) <= fuel)%nat -> (1 <= fuel)%nat ->
  exists r, search fuel o sa tl b e = Ok r.
Proof.
  intros R Hlast. pose proof (sa_real_le _ _ R) as F. destruct R as [L _].
  induction fuel as [|k IH]; intros b e H1 H2 HE H3 H4; [lia|]. cbn [search].
  destruct (Z.ltb_spec (e - b) 2).
  - rewrite !sa_suffix_at by (try exact F; lia). cbn [bind]. eauto.
  - assert (M := Z.div_mod (e - b) 2 ltac:(lia)). assert (M2 := Z.mod_pos_bound (e - b) 2 ltac:(lia)).
    set (q := (e - b) / 2) in *. clearbody q.
    rewrite sa_suffix_at by (try exact F; lia). cbn [bind].
    destruct (memcmp_lt (zdrop (znth 0 (b + q) sa) o) tl) eqn:C; apply IH; try lia.
    intros ->. destruct (Z.eq_dec (b + q) (zlen o - 1)) as [X|X]; [|lia]. rewrite X in C. congruence.
Qed.
(* ... and reads past the array when it does *)
Lemma search_past o sa tl fuel : sa_real o sa ->
  (forall i, 0 <= i < zlen o -> memcmp_lt (zdrop (znth 0 i sa) o) tl = true) ->
  forall b, 0 <= b <= zlen o -> (Z.to_nat (zlen o - b) <= fuel)%nat -> (1 <= fuel)%nat ->
  search fuel o sa tl b (zlen o) = UB.
Proof.
  intros R Hall. pose proof (sa_real_le _ _ R) as F. destruct R as [L _].
  induction fuel as [|k IH]; intros b H1 H3 H4; [lia|]. cbn [search].
  destruct (Z.ltb_spec (zlen o - b) 2).
  - destruct (Z.eq_dec b (zlen o)) as [-> |X].
    + unfold sa_suffix at 1. rewrite getz_out by lia. reflexivity.
    + rewrite sa_suffix_at by (try exact F; lia). cbn [bind]. unfold sa_suffix. rewrite getz_out by lia. reflexivity.
  - assert (M := Z.div_mod (zlen o - b) 2 ltac:(lia)). assert (M2 := Z.mod_pos_bound (zlen o - b) 2 ltac:(lia)).
    set (q := (zlen o - b) / 2) in *. clearbody q.
    rewrite sa_suffix_at by (try exact F; lia). cbn [bind].
    rewrite Hall by lia. apply IH; lia.
Qed.

Section Safe.
Variables (o n : bytes) (sa : list Z).
Hypothesis (Hn : bytes_ok n) (Bo : zlen o < 2^62) (Bn : zlen n < 2^62) (Sm : small o n).
Hypothesis SR : forall s, 0 <= s < zlen n -> exists r, search (S (length o)) o sa (zdrop s n) 0 (zlen o) = Ok r.

Lemma score_in fuel : forall off scsc upto score, 0 <= scsc -> 0 <= scsc + off -> upto <= zlen n ->
  (Z.to_nat (upto - scsc) <= fuel)%nat -> exists r, score_loop o n fuel off scsc upto score = Ok r.
Proof.
  induction fuel as [|k IH]; intros off scsc upto score H1 H2 H3 H4; cbn [score_loop].
  - destruct (Z.ltb_spec scsc upto); [lia|eauto].
  - destruct (Z.ltb_spec scsc upto); [|eauto].
    destruct (Z.ltb_spec (scsc + off) (zlen o)).
    + rewrite !getz_in by lia. cbn [bind]. apply IH; lia.
    + cbn [bind]. apply IH; lia.
Qed.
Lemma fwd_in c fuel : forall i s sf dsz, bd_inv o n c -> 0 <= i -> (Z.to_nat (bd_scan c - bd_lscan c - i) <= fuel)%nat ->
  exists r, fwd_loop o n fuel c i s sf dsz = Ok r.
Proof.
  induction fuel as [|k IH]; intros i s sf dsz I H1 H2; cbn [fwd_loop].
  - destruct ((bd_lscan c + i <? bd_scan c) && (bd_lpos c + i <? zlen o)) eqn:C; [lia|eauto].
  - destruct ((bd_lscan c + i <? bd_scan c) && (bd_lpos c + i <? zlen o)) eqn:C; [|eauto].
    pose proof I as (I1 & I2 & I5 & I6 & I7). rewrite !getz_in by lia. cbn [bind].
    destruct (_ >? _); apply IH; auto; lia.
Qed.
Lemma bwd_in c fuel : forall i s sb lenb, bd_inv o n c -> 1 <= i -> (Z.to_nat (bd_scan c - bd_lscan c - i + 1) <= fuel)%nat ->
  exists r, bwd_loop o n fuel c i s sb lenb = Ok r.
Proof.
  induction fuel as [|k IH]; intros i s sb lenb I H1 H2; cbn [bwd_loop].
  - destruct ((bd_scan c >=? bd_lscan c + i) && (bd_pos c >=? i)) eqn:C; [lia|eauto].
  - destruct ((bd_scan c >=? bd_lscan c + i) && (bd_pos c >=? i)) eqn:C; [|eauto].
    pose proof I as (I1 & I2 & I5 & I6 & I7). rewrite !getz_in by lia. cbn [bind].
    destruct (_ >? _); apply IH; auto; lia.
Qed.
Lemma overlap_in c dsz lenb ov fuel : forall i s ss lens, bd_inv o n c -> 0 <= i ->
  ov = bd_lscan c + dsz - (bd_scan c - lenb) ->
  0 <= dsz -> bd_lscan c + dsz <= bd_scan c -> bd_lpos c + dsz <= zlen o ->
  0 <= lenb -> bd_lscan c + lenb <= bd_scan c -> lenb <= bd_pos c ->
  (Z.to_nat (ov - i) <= fuel)%nat -> exists r, overlap_loop o n fuel c dsz lenb ov i s ss lens = Ok r.
Proof.
  induction fuel as [|k IH]; intros i s ss lens I H1 Hov D1 D2 D3 L1 L2 L3 H2; cbn [overlap_loop].
  - destruct (Z.ltb_spec i ov); [lia|eauto].
  - destruct (Z.ltb_spec i ov); [|eauto]. pose proof I as (I1 & I2 & I5 & I6 & I7).
    rewrite !getz_in by lia. cbn [bind]. destruct (_ >? _); apply IH; auto; lia.
Qed.
Lemma write_diff_in c : bd_inv o n c -> exists c1, write_diff o n c = Ok c1.
Proof.
  intros I. pose proof I as (I1 & I2 & I5 & I6 & I7). unfold write_diff.
  destruct (fwd_in c (length n) 0 0 0 0 I) as (dsz0 & E0); [lia|unfold zlen in *; lia|]. rewrite E0. cbn [bind].
  apply fwd_bound in E0; [|lia|lia].
  assert (B : exists lenb0, (if bd_scan c <? zlen n then bwd_loop o n (length n) c 1 0 0 0 else Ok 0) = Ok lenb0 /\
            0 <= lenb0 /\ (lenb0 = 0 \/ (bd_lscan c + lenb0 <= bd_scan c /\ lenb0 <= bd_pos c))).
  { destruct (bd_scan c <? zlen n).
    - destruct (bwd_in c (length n) 1 0 0 0 I) as (l & El); [lia|unfold zlen in *; lia|]. exists l. split; [exact El|].
      apply bwd_bound in El; lia.
    - exists 0. split; [reflexivity|]. lia. }
  destruct B as (lenb0 & E1 & B). rewrite E1. cbn [bind]. clear E1.
  set (ov := bd_lscan c + dsz0 - (bd_scan c - lenb0)).
  assert (X : exists dsz lenb,
     (if ov >? 0 then do lens <- overlap_loop o n (length n) c dsz0 lenb0 ov 0 0 0 0;
        Ok (dsz0 + (lens - ov), lenb0 - lens) else Ok (dsz0, lenb0)) = Ok (dsz, lenb) /\
     0 <= dsz <= dsz0 /\ 0 <= lenb <= lenb0 /\ bd_lscan c + dsz <= bd_scan c - lenb).
  { destruct (Z.gtb_spec ov 0).
    - destruct (overlap_in c dsz0 lenb0 ov (length n) 0 0 0 0 I) as (lens & El); try lia; [unfold zlen in *; lia|].
      rewrite El. cbn [bind]. apply overlap_bound in El; [|lia|lia].
      exists (dsz0 + (lens - ov)), (lenb0 - lens). split; [reflexivity|]. lia.
    - exists dsz0, lenb0. split; [reflexivity|]. lia. }
  destruct X as (dsz & lenb & E2 & X). rewrite E2. cbn [bind]. clear E2. clearbody ov.
  rewrite !offtout_enc by lia. cbn [bind]. destruct (Z.ltb_spec dsz 0); [lia|].
  destruct (diff_chunks_in o n c (length n) 0 dsz) as (ch & Ec); try lia; [unfold zlen in *; lia|].
  rewrite Ec. cbn [bind].
  set (xs := bd_scan c - lenb - (bd_lscan c + dsz)) in *.
  destruct (Z.eqb_spec xs 0); cbn [bind]; [eauto|].
  destruct ((xs <? 0) || (bd_lscan c + dsz <? 0) || (bd_lscan c + dsz + xs >? zlen n)) eqn:C; [lia|]. cbn [bind]. eauto.
Qed.
(* progress: a break at the entry position has a non-zero match *)
Lemma scan_in fuel : forall c scsc score, bd_inv o n c -> 0 <= scsc -> 0 <= scsc + bd_loff c -> (Z.to_nat (zlen n - bd_scan c) <= fuel)%nat ->
  exists c1 sc1, scan_loop o n sa fuel c scsc score = Ok (c1, sc1) /\
    (bd_scan c < bd_scan c1 \/ bd_scan c1 = zlen n \/ (bd_scan c1 = bd_scan c /\ (scsc = bd_scan c -> score = 0 -> 0 < bd_len c1))).
Proof.
  induction fuel as [|k IH]; intros c scsc score I Hs Hs2 Hf; pose proof I as (I1 & I2 & I5 & I6 & I7); cbn [scan_loop].
  - destruct (Z.ltb_spec (bd_scan c) (zlen n)); [lia|]. exists c, score. split; [reflexivity|]. lia.
  - destruct (Z.ltb_spec (bd_scan c) (zlen n)).
    2:{ exists c, score. split; [reflexivity|]. lia. }
    destruct (Z.ltb_spec (bd_scan c) 0) as [|_]; [lia|].
    destruct (SR (bd_scan c)) as ([len pos] & E1); [lia|].
    rewrite E1. cbn [bind]. apply (search_bound o n) in E1; [|exact Sm|rewrite zlen_zdrop; lia]. rewrite zlen_zdrop in E1.
    cbn [bd_loff bd_scan bd_lscan bd_lpos bd_out].
    destruct (score_in (length n) (bd_loff c) scsc (bd_scan c + len) score) as (sc2 & E2); [lia|lia|lia|unfold zlen in *; lia|].
    rewrite E2. cbn [bind].
    destruct (((len =? sc2) && negb (len =? 0)) || (len >? sc2 + 8)) eqn:C.
    + eexists _, _. split; [reflexivity|]. cbn [bd_scan bd_len]. right. right. split; [reflexivity|].
      intros -> ->. assert (0 <= sc2); [|lia].
      clear -E2. revert E2. generalize (length n) (bd_loff c) (bd_scan c) (bd_scan c + len).
      assert (G : forall fuel off a b s r, score_loop o n fuel off a b s = Ok r -> s <= r).
      { induction fuel as [|k IH]; intros off a b s r; cbn [score_loop].
        - destruct (a <? b); [discriminate|]. intros E. injection E as <-. lia.
        - destruct (a <? b); [|intros E; injection E as <-; lia].
          intros E. apply bind_ok in E as (hit & _ & E). apply IH in E. destruct hit; lia. }
      intros f1 off a b E2. apply G in E2. exact E2.
    + assert (X : exists hit : bool, (if bd_scan c + bd_loff c <? zlen o
                  then do a <- getz o (bd_scan c + bd_loff c); do b <- getz n (bd_scan c); Ok (a =? b)
                  else Ok false) = Ok hit).
      { destruct (Z.ltb_spec (bd_scan c + bd_loff c) (zlen o)); [|eauto]. rewrite !getz_in by lia. cbn [bind]. eauto. }
      destruct X as (hit & Eh). rewrite Eh. cbn [bind].
      match goal with |- context [scan_loop o n sa k ?cc ?ss ?sc] => destruct (IH cc ss sc) as (c1 & sc1 & E3 & P) end.
      * unfold bd_inv; cbn [bd_scan bd_len bd_lscan bd_pos bd_lpos bd_loff]. lia.
      * lia.
      * cbn [bd_loff]. lia.
      * cbn [bd_scan]. lia.
      * exists c1, sc1. split; [exact E3|]. cbn [bd_scan] in P. lia.
Qed.
Lemma main_in fuel : forall c, bd_inv o n c -> bd_written o n c ->
  (bd_scan c < zlen n -> 0 <= bd_len c /\ bd_scan c + bd_len c <= zlen n) ->
  (bd_scan c < zlen n -> (Z.to_nat (zlen n - (bd_scan c + bd_len c)) + 1 <= fuel)%nat) ->
  exists c1, main_loop o n sa fuel c = Ok c1.
Proof.
  induction fuel as [|k IH]; intros c I W L F; cbn [main_loop].
  - destruct (Z.ltb_spec (bd_scan c) (zlen n)) as [G|G]; [specialize (F G); lia|eauto].
  - destruct (Z.ltb_spec (bd_scan c) (zlen n)) as [G|G]; [|eauto].
    specialize (L G). specialize (F G). pose proof I as (I1 & I2 & I5 & I6 & I7).
    set (c0 := mkBd (bd_scan c + bd_len c) (bd_len c) (bd_pos c) (bd_lscan c) (bd_lpos c) (bd_loff c) (bd_out c)).
    assert (J0 : bd_inv o n c0) by (unfold bd_inv, c0; cbn [bd_scan bd_len bd_lscan bd_pos bd_lpos bd_loff]; lia).
    destruct (scan_in (length n) c0 (bd_scan c0) 0 J0) as (c1 & sc1 & E1 & P).
    { unfold c0; cbn [bd_scan]; lia. } { unfold c0; cbn [bd_scan bd_loff]; lia. }
    { unfold c0; cbn [bd_scan]. unfold zlen in *. lia. }
    rewrite E1. cbn [bind]. apply (scan_loop_ok o n sa Sm) in E1; [|exact J0|exact W].
    destruct E1 as (J & W2 & M & N2). change (bd_scan c0) with (bd_scan c + bd_len c) in *.
    destruct (negb (bd_len c1 =? sc1) || (bd_scan c1 =? zlen n)) eqn:C.
    + destruct (write_diff_in c1 J) as (c2 & E2). rewrite E2. cbn [bind].
      apply (write_diff_ok o n Hn Bo Bn) in E2; [|exact J|exact W2]. destruct E2 as (J3 & W3 & S3 & L3 & F3).
      apply IH; auto; rewrite ?S3, ?L3; auto.
      intros X. specialize (N2 X). destruct P as [P|[P|[P1 P2]]]; [lia|lia|]. specialize (P2 eq_refl eq_refl). lia.
    + cbn [bind]. apply IH; auto. intros X. specialize (N2 X).
      destruct P as [P|[P|[P1 P2]]]; [lia|lia|]. specialize (P2 eq_refl eq_refl). lia.
Qed.
Lemma bsdiff_chunks_in : exists l, bsdiff_chunks o n sa = Ok l.
Proof.
  unfold bsdiff_chunks. destruct (bd_init_inv o n) as [I W].
  destruct (main_in (2 * length n + 2) bd_init I W) as (c & E).
  - cbn. pose proof (zlen_nonneg n). lia.
  - intros _. cbn [bd_init bd_scan bd_len]. unfold zlen. lia.
  - rewrite E. cbn [bind]. eauto.
Qed.
End Safe.

(* ---- written to a file and applied ----------------------------------- *)
Lemma write_all_concat l : forall f off pos, 0 <= off + pos ->
  write_all f off pos l = (fwrite_at f (off + pos) (concat l), pos + zlen (concat l)).
Proof.
  induction l as [|b l IH]; intros f off pos H; cbn [write_all concat].
  - rewrite fwrite_at_nil. change (zlen (@nil Z)) with 0. rewrite Z.add_0_r. reflexivity.
  - pose proof (zlen_nonneg b). rewrite IH by lia. rewrite fwrite_at_app by lia. rewrite zlen_app.
    replace (off + (pos + zlen b)) with (off + pos + zlen b) by lia. f_equal. lia.
Qed.

Lemma bsdiff_in_good o n sa :
  bytes_ok n -> zlen o < 2^62 -> zlen n < 2^62 -> small o n -> sa_good o sa ->
  exists l, bsdiff_chunks o n sa = Ok l.
Proof.
  intros Hn Bo Bn Sm G. apply bsdiff_chunks_in; auto. intros s Hs.
  apply search_in; auto; pose proof (zlen_nonneg o); unfold zlen in *; lia.
Qed.
Lemma bsdiff_in_real o n sa :
  bytes_ok n -> 2 <= zlen o < 2^62 -> zlen n < 2^62 -> small o n -> sa_real o sa ->
  (forall s, 0 <= s < zlen n -> memcmp_lt (zdrop (znth 0 (zlen o - 1) sa) o) (zdrop s n) = false) ->
  exists l, bsdiff_chunks o n sa = Ok l.
Proof.
  intros Hn Bo Bn Sm G H. apply bsdiff_chunks_in; auto; [lia|]. intros s Hs.
  apply search_real; auto; unfold zlen in *; lia.
Qed.
Lemma bsdiff_past o n sa :
  n <> [] -> sa_real o sa ->
  (forall i, 0 <= i < zlen o -> memcmp_lt (zdrop i o) n = true) ->
  bsdiff_chunks o n sa = UB.
Proof.
  intros Nn R H. destruct n as [|b n']; [congruence|]. clear Nn.
  unfold bsdiff_chunks. set (n := b :: n') in *.
  assert (P : 0 < zlen n) by (unfold n; rewrite zlen_cons; pose proof (zlen_nonneg n'); lia).
  replace (2 * length n + 2)%nat with (S (2 * length n + 1)) by lia.
  cbn [main_loop bd_init bd_scan bd_len bd_pos bd_lscan bd_lpos bd_loff bd_out].
  destruct (Z.ltb_spec 0 (zlen n)); [|lia]. change (0 + 0) with 0.
  change (length n) with (S (length n')) at 1. cbn [scan_loop bd_scan].
  destruct (Z.ltb_spec 0 (zlen n)); [|lia]. change (0 <? 0) with false. cbn match. rewrite zdrop_0.
  rewrite search_past; [reflexivity|exact R| |pose proof (zlen_nonneg o); lia|unfold zlen; lia|lia].
  intros i Hi. apply H. destruct R as [L F]. rewrite Forall_forall in F. apply F.
  unfold znth. apply nth_In. unfold zlen in *. lia.
Qed.
(* writing the patch and applying it *)
Lemma diff_then_patch o n sa pf poff pf1 plen :
  bytes_ok n -> zlen o < 2^62 -> zlen n < 2^62 -> 0 <= poff ->
  bsdiff_none o n sa pf poff = Ok (pf1, plen) ->
  exists p, pf1 = fwrite_at pf poff p /\ plen = zlen p /\
    forall file ooff woff blen f l,
      0 < blen -> zlen file < 2^62 -> 0 <= woff -> 0 <= ooff ->
      slice ooff (zlen o) file = o -> ooff + zlen o <= zlen file -> concat l = p ->
      exists c1, bspatch_chunks file ooff woff blen bs_init f l = (c1, fwrite_at f woff n, Ok tt) /\
        bspatch_final c1 = Ok (zlen n).
Proof.
  intros Hn Bo Bn Hp E. unfold bsdiff_none in E. apply bind_ok in E as (l & E1 & E).
  rewrite write_all_concat in E by lia. injection E as <- <-. rewrite Z.add_0_r.
  exists (concat l). split; [reflexivity|]. split; [reflexivity|].
  apply (bsdiff_chunks_ok o n Hn Bo Bn sa) in E1 as (rs & A & B & C & D).
  intros file ooff woff blen f l2 H1 H2 H3 H4 H5 H6 H7.
  apply (apply_patch_chunks file ooff woff blen o rs n f l2); auto. congruence.
Qed.
Lemma memcmp_first o i b n : 0 <= i < zlen o -> Forall (fun x => x < b) o -> memcmp_lt (zdrop i o) (b :: n) = true.
Proof.
  intros H F. destruct (zdrop i o) as [|x r] eqn:E.
  - assert (L := zlen_zdrop i o). rewrite E in L. change (zlen (@nil Z)) with 0 in L. lia.
  - assert (X : x < b).
    { rewrite Forall_forall in F. apply F. rewrite <- (ztake_zdrop i o), E. apply in_or_app. right. left. reflexivity. }
    cbn [memcmp_lt]. destruct (Z.eqb_spec x b); [lia|]. apply Z.ltb_lt. exact X.
Qed.
Lemma bsdiff_bigger_byte o sa b n : sa_real o sa -> Forall (fun x => x < b) o -> bsdiff_chunks o (b :: n) sa = UB.
Proof. intros R F. apply bsdiff_past; [discriminate|exact R|]. intros i Hi. apply memcmp_first; auto. Qed.
