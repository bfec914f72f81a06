(* BsdiffSize.v -- how long a patch can get *)
From Verif Require Import Base BaseLemmas BspatchModel BspatchSpec BspatchProofs BspatchApply BsdiffModel BsdiffProofs BsdiffSafe HsModel HsSpec HsPatchModel HsPatchFinal.

Lemma diff_bytes_len o n : forall cnt np op r, diff_bytes o n cnt np op = Ok r -> zlen r = Z.of_nat cnt.
Proof.
  induction cnt as [|k IH]; intros np op r; cbn [diff_bytes].
  - intros E. injection E as <-. reflexivity.
  - intros E. apply bind_ok in E as (a & _ & E). apply bind_ok in E as (c & _ & E). apply bind_ok in E as (t & Et & E). injection E as <-.
    rewrite zlen_cons, (IH _ _ _ Et). lia.
Qed.
Lemma diff_chunks_len o n c : forall fuel i left r, 0 <= left -> diff_chunks o n fuel c i left = Ok r -> zlen (concat r) = left.
Proof.
  induction fuel as [|k IH]; intros i left r H; cbn [diff_chunks]; destruct (Z.eqb_spec left 0) as [->|N]; try (intros E; injection E as <-; reflexivity); try discriminate.
  intros E. apply bind_ok in E as (a & Ea & E). apply bind_ok in E as (t & Et & E). injection E as <-. cbn [concat].
  apply diff_bytes_len in Ea. apply IH in Et; [|lia]. rewrite zlen_app, Ea. unfold bytes in *. rewrite Et. lia.
Qed.
Lemma offtout_loop_len : forall k y, length (offtout_loop k y) = k.
Proof. induction k as [|k IH]; intros y; [reflexivity|]. cbn [offtout_loop length]. now rewrite IH. Qed.
Lemma ok_same {A} (x y : A) : Ok x = Ok y -> x = y.
Proof. intros E. now injection E. Qed.
Lemma offtout_len x k : offtout x = Ok k -> zlen k = 8.
Proof.
  unfold offtout. destruct (x =? _); [discriminate|]. set (l := offtout_loop 8 _).
  assert (Ll : length l = 8%nat) by apply offtout_loop_len. clearbody l. intros E. apply ok_same in E. rewrite <- E. unfold zlen.
  destruct (x <? 0); [rewrite length_list_upd|]; now rewrite Ll.
Qed.
Lemma write_diff_len o n c c1 : write_diff o n c = Ok c1 ->
  zlen (concat (bd_out c1)) = zlen (concat (bd_out c)) + 24 + (bd_lscan c1 - bd_lscan c).
Proof.
  unfold write_diff. intros E. apply bind_ok in E as (dsz0 & _ & E). apply bind_ok in E as (lenb0 & _ & E).
  apply bind_ok in E as ([dsz lenb] & _ & E). apply bind_ok in E as (k1 & K1 & E). apply bind_ok in E as (k2 & K2 & E). apply bind_ok in E as (k3 & K3 & E).
  apply bind_ok in E as (ch & Ec & E). apply bind_ok in E as (ex & Ee & E). injection E as <-. cbn [bd_out bd_lscan].
  destruct (Z.ltb_spec dsz 0); [discriminate|]. apply diff_chunks_len in Ec; [|lia].
  unfold bytes in *. cbn [app]. rewrite concat_app. cbn [concat]. rewrite concat_app, !zlen_app, Ec. cbn [concat]. apply offtout_len in K1, K2, K3. unfold bytes in *. rewrite K1, K2, K3.
  assert (X : zlen (concat ex) = bd_scan c - lenb - (bd_lscan c + dsz)).
  { destruct (Z.eqb_spec (bd_scan c - lenb - (bd_lscan c + dsz)) 0) as [Z0|Z0].
    - injection Ee as <-. rewrite Z0. reflexivity.
    - destruct ((_ <? 0) || _ || _) eqn:B; [discriminate|]. injection Ee as <-. cbn [concat]. rewrite app_nil_r.
      apply orb_false_iff in B as [B B3]. apply orb_false_iff in B as [B1 B2]. rewrite zlen_slice; lia. }
  rewrite X. lia.
Qed.
Lemma scan_loop_out o n sa : forall fuel c scsc score c1 sc1, scan_loop o n sa fuel c scsc score = Ok (c1, sc1) -> bd_out c1 = bd_out c /\ bd_lscan c1 = bd_lscan c.
Proof.
  induction fuel as [|k IH]; intros c scsc score c1 sc1; cbn [scan_loop]; destruct (bd_scan c <? zlen n); try discriminate;
    try (intros E; injection E as <- _; auto; fail).
  destruct (bd_scan c <? 0); [discriminate|]. intros E. apply bind_ok in E as ([len pos] & _ & E).
  cbn [bd_loff bd_scan bd_lscan bd_lpos bd_out] in E. apply bind_ok in E as (sc2 & _ & E).
  destruct (_ || _); [injection E as <- _; auto|]. apply bind_ok in E as (hit & _ & E). apply IH in E. exact E.
Qed.
Lemma main_loop_len o n sa : forall fuel c c1, main_loop o n sa fuel c = Ok c1 ->
  zlen (concat (bd_out c1)) <= zlen (concat (bd_out c)) + 24 * Z.of_nat fuel + (bd_lscan c1 - bd_lscan c).
Proof.
  induction fuel as [|k IH]; intros c c1; cbn [main_loop]; destruct (bd_scan c <? zlen n); try discriminate; try (intros E; injection E as <-; lia).
  intros E. apply bind_ok in E as ([c2 sc] & E1 & E). apply bind_ok in E as (c3 & E2 & E). apply scan_loop_out in E1 as [O1 L1].
  cbn [bd_out bd_lscan] in O1, L1. apply IH in E.
  destruct (negb (bd_len c2 =? sc) || (bd_scan c2 =? zlen n)).
  - apply write_diff_len in E2. rewrite O1, L1 in E2. lia.
  - injection E2 as <-. rewrite O1, L1 in E. lia.
Qed.
Lemma bsdiff_len o n sa l : bytes_ok n -> zlen o < 2^62 -> zlen n < 2^62 -> bsdiff_chunks o n sa = Ok l -> zlen (concat l) <= 49 * zlen n + 48.
Proof.
  intros Hn Bo Bn E. unfold bsdiff_chunks in E. apply bind_ok in E as (c & E1 & E). injection E as <-.
  destruct (bd_init_inv o n) as [I0 W]. pose proof E1 as E2.
  assert (I : bd_any o n bd_init) by (destruct I0 as (? & ? & ? & ? & ?); unfold bd_any; lia).
  apply (main_loop_any o n Hn Bo Bn) in E1; auto.
  2:{ cbn. pose proof (zlen_nonneg n). lia. }
  destruct E1 as [_ L]. apply main_loop_len in E2. rewrite L in E2. cbn [bd_init bd_out bd_lscan concat] in E2. change (zlen (@nil Z)) with 0 in E2.
  unfold zlen in *. lia.
Qed.

(* ---- heatshrink ---- *)
Lemma repeat_back_len n d : forall hist, zlen (repeat_back n d hist) = zlen hist + Z.of_nat n.
Proof. induction n as [|k IH]; intros h; cbn [repeat_back]; [lia|]. rewrite IH, zlen_app, zlen_cons. change (zlen (@nil Z)) with 0. lia. Qed.
Lemma expand_len : forall ts hist, Forall token_ok ts -> zlen hist + zlen ts <= zlen (fold_left expand1 ts hist).
Proof.
  induction ts as [|t ts IH]; intros h F; cbn [fold_left]; [change (zlen (@nil token)) with 0; lia|]. inversion F as [|? ? T F']; subst.
  specialize (IH (expand1 h t) F'). rewrite zlen_cons. enough (zlen h + 1 <= zlen (expand1 h t)) by lia.
  destruct t as [c|d n]; cbn [expand1].
  - rewrite zlen_app, zlen_cons. change (zlen (@nil Z)) with 0. lia.
  - rewrite repeat_back_len. destruct T as [_ T]. lia.
Qed.
Lemma to_bits_len n v : zlen (to_bits n v) = Z.of_nat n.
Proof. induction n as [|k IH]; cbn [to_bits]; [reflexivity|]. rewrite zlen_cons, IH. lia. Qed.
Lemma token_bits_len t : zlen (token_bits t) <= 16.
Proof. destruct t; cbn [token_bits]; rewrite zlen_cons, ?zlen_app, ?to_bits_len; lia. Qed.
Lemma flat_bits_len ts : zlen (flat_map token_bits ts) <= 16 * zlen ts.
Proof.
  induction ts as [|t ts IH]; cbn [flat_map]; [reflexivity|]. rewrite zlen_app, zlen_cons. pose proof (token_bits_len t). lia.
Qed.
Lemma bits_len (c : bytes) : zlen (bits_of c) = 8 * zlen c.
Proof. induction c as [|x c IH]; [reflexivity|]. unfold bits_of in *. cbn [flat_map]. rewrite zlen_app, to_bits_len, zlen_cons, IH. lia. Qed.
Lemma compressed_len c s : compressed c s -> zlen c <= 2 * zlen s.
Proof.
  intros (_ & ts & p & F & B & P & E). pose proof (bits_len c) as L. rewrite B, zlen_app in L.
  pose proof (flat_bits_len ts). pose proof (expand_len ts (zeros 256) F) as X. rewrite zlen_zeros in X.
  assert (Z1 : zlen s = zlen (fold_left expand1 ts (zeros 256)) - 256).
  { rewrite <- E. unfold expand. rewrite zlen_zdrop. pose proof (zlen_nonneg ts). lia. }
  assert (zlen (repeat false p) = Z.of_nat p) by (unfold zlen; now rewrite repeat_length). lia.
Qed.
