(* MerkleVerify.v -- bpak_verify_merkle_tree *)
From Verif Require Import BaseLemmas HeaderModel CrcModel HashModel MerkleModel MerkleSpec MerkleSizes
  MerkleChunks MerkleProofs VerifyModel MerkleVerifySpec.

Lemma file_rd_in f o n : 0 <= o -> 0 <= n -> o + n <= zlen f -> file_rd f o n = Ok (slice o n f).
Proof.
  intros Ho Hn H. unfold file_rd, fread_at. destruct (Z.ltb_spec o 0); [lia|].
  rewrite zlen_slice_in by lia. now rewrite Z.eqb_refl.
Qed.

Lemma chain_inv sha salt d t ts : chain sha salt d (t :: ts) ->
  ztake (32 * (zlen d / 4096)) t = block_hashes sha salt (Z.to_nat (zlen d / 4096)) d /\ chain sha salt t ts.
Proof. inversion 1; auto. Qed.

Section V.
Context (sha : hashfn) (f : bytes) (Hg : good_hash sha).
Let d := verify_io (file_rd f).

Lemma verify_wr_iff o b : 0 <= o -> o + zlen b <= zlen f ->
  (io_wr d tt o b = Ok tt <-> slice o (zlen b) f = b) /\
  (io_wr d tt o b = Ok tt \/ io_wr d tt o b = Err E_VERIFY_FAIL).
Proof.
  intros Ho H. cbn [d verify_io io_wr]. rewrite file_rd_in by (try apply zlen_nonneg; lia). cbn [bind].
  destruct (bytes_eqb b (slice o (zlen b) f)) eqn:E.
  - apply bytes_eqb_eq in E. split; [split; intros; congruence|auto].
  - apply bytes_eqb_neq in E. split; [split; intros; [discriminate|congruence]|auto].
Qed.
Lemma unit_tt (x : unit) : x = tt. Proof. now destruct x. Qed.

Lemma write_hashes_verify salt : forall k pos data, 0 <= pos -> pos + 32 * Z.of_nat k <= zlen f ->
  (write_hashes sha d k tt salt pos data = Ok tt <->
   slice pos (32 * Z.of_nat k) f = block_hashes sha salt k data) /\
  (write_hashes sha d k tt salt pos data = Ok tt \/ write_hashes sha d k tt salt pos data = Err E_VERIFY_FAIL).
Proof.
  induction k as [|k IH]; intros pos data Hp Hs; cbn [write_hashes block_hashes].
  - rewrite slice_neg_len by lia. tauto.
  - set (h := sha 1 (salt ++ ztake 4096 data)).
    assert (Eh : zlen h = 32) by (apply zlen_sha256; auto).
    destruct (verify_wr_iff pos h) as [W1 W2]; [lia..|].
    replace (32 * Z.of_nat (S k)) with (32 + 32 * Z.of_nat k) by lia. rewrite slice_split by lia.
    specialize (IH (pos + 32) (zdrop 4096 data) ltac:(lia) ltac:(lia)). destruct IH as [I1 I2].
    rewrite Eh in W1.
    assert (Ls : zlen (slice pos 32 f) = 32) by (apply zlen_slice_in; lia).
    destruct W2 as [W2|W2]; rewrite W2; cbn [bind].
    + rewrite (proj1 W1 W2). split; [|exact I2]. rewrite I1.
      split; intros E; [now rewrite E|]. apply app_inv_head in E. exact E.
    + split; [|now right]. split; [discriminate|]. intros E.
      assert (slice pos 32 f = h).
      { apply (f_equal (ztake 32)) in E. rewrite !ztake_app_l in E by lia. rewrite !ztake_all in E by lia. exact E. }
      apply W1 in H. congruence.
Qed.
Lemma read_pieces_verify : forall k pos acc, 0 <= pos -> pos + 32 * Z.of_nat k <= zlen f ->
  read_pieces d k tt pos acc = Ok (acc ++ slice pos (32 * Z.of_nat k) f).
Proof.
  induction k as [|k IH]; intros pos acc Hp Hs; cbn [read_pieces].
  - rewrite slice_neg_len by lia. now rewrite app_nil_r.
  - unfold MHASH. cbn [d verify_io io_rd]. rewrite file_rd_in by lia. cbn [bind]. fold d. rewrite IH by lia.
    f_equal. rewrite <- app_assoc. f_equal.
    replace (32 * Z.of_nat (S k)) with (32 + 32 * Z.of_nat k) by lia.
    rewrite slice_split by lia. reflexivity.
Qed.
Lemma finish_level_verify salt : forall n src dst,
  0 <= dst -> dst + 32 * Z.of_nat n <= zlen f -> 0 <= src -> src + 4096 * Z.of_nat n <= zlen f ->
  (finish_level sha d n tt salt src dst = Ok tt <->
   slice dst (32 * Z.of_nat n) f = block_hashes sha salt n (slice src (4096 * Z.of_nat n) f)) /\
  (finish_level sha d n tt salt src dst = Ok tt \/ finish_level sha d n tt salt src dst = Err E_VERIFY_FAIL).
Proof.
  induction n as [|n IH]; intros src dst Hd Hds Hs1 Hs2; cbn [finish_level block_hashes].
  - rewrite slice_neg_len by lia. tauto.
  - rewrite read_pieces_verify by lia. cbn [bind].
    change (32 * Z.of_nat 128) with 4096. change HASH_SHA256 with 1.
    assert (E1 : ztake 4096 (slice src (4096 * Z.of_nat (S n)) f) = slice src 4096 f).
    { unfold slice. rewrite ztake_ztake. f_equal. lia. }
    assert (E2 : zdrop 4096 (slice src (4096 * Z.of_nat (S n)) f) = slice (src + 4096) (4096 * Z.of_nat n) f).
    { unfold slice. rewrite zdrop_ztake by lia. rewrite zdrop_zdrop by lia. f_equal; [lia|f_equal; lia]. }
    rewrite E1, E2. set (h := sha 1 (salt ++ slice src 4096 f)).
    assert (Eh : zlen h = 32) by (apply zlen_sha256; auto). clearbody h.
    destruct (verify_wr_iff dst h) as [W1 W2]; [lia..|].
    replace (32 * Z.of_nat (S n)) with (32 + 32 * Z.of_nat n) by lia. rewrite slice_split by lia.
    specialize (IH (src + 4096) (dst + 32) ltac:(lia) ltac:(lia) ltac:(lia) ltac:(lia)). destruct IH as [I1 I2].
    rewrite Eh in W1. unfold MBLOCK, MHASH.
    assert (Ls : zlen (slice dst 32 f) = 32) by (apply zlen_slice_in; lia).
    destruct W2 as [W2|W2]; rewrite W2; cbn [bind].
    + rewrite (proj1 W1 W2). split; [|exact I2]. rewrite I1.
      split; intros E; [now rewrite E|]. apply app_inv_head in E. exact E.
    + split; [|now right]. split; [discriminate|]. intros E.
      assert (slice dst 32 f = h).
      { apply (f_equal (ztake 32)) in E. rewrite !ztake_app_l in E by lia. rewrite !ztake_all in E by lia. exact E. }
      apply W1 in H. congruence.
Qed.

(* sizes of a stored tree *)
Definition sized (c0 : Z) (ts : list bytes) : Prop :=
  exists l, tree_blocks c0 l /\ map zlen ts = map (Z.mul 4096) l.

Lemma finish_levels_verify c P Q ts : ctx_layout c ts -> mk_offset c = zlen P ->
  f = P ++ hash_tree ts ++ Q ->
  forall U i X low cx, ts = low ++ X :: U -> S (length low) = i -> zlen X = 4096 * cx -> 0 < cx ->
  (U = [] \/ sized cx U) ->
  (finish_levels sha d (length U) i c tt = Ok tt <-> chain sha (mk_salt c) X U) /\
  (finish_levels sha d (length U) i c tt = Ok tt \/ finish_levels sha d (length U) i c tt = Err E_VERIFY_FAIL).
Proof.
  intros [_ [HL HO]] HA Hf. induction U as [|Y U IH]; intros i X low cx Hts Hlow HX Hcx HU.
  { cbn. split; [split; [constructor|reflexivity]|now left]. }
  destruct HU as [HU|(l & Hl & Hmap)]; [discriminate|].
  cbn [length finish_levels].
  assert (Hlen : length ts = (S i + length U)%nat) by (subst ts i; rewrite app_length; cbn [length]; lia).
  assert (Hn1 : nth (i - 1) ts [] = X). { subst ts i. replace (S (length low) - 1)%nat with (length low) by lia. apply nth_middle. }
  rewrite (HL (i - 1)%nat), (HO (i - 1)%nat), (HO i) by lia. rewrite Hn1, HA.
  replace (skipn (S (i - 1)) ts) with (Y :: U).
  2:{ subst ts i. rewrite skipn_app, skipn_all2 by lia. replace (S (S (length low) - 1) - length low)%nat with 1%nat by lia. reflexivity. }
  replace (skipn (S i) ts) with U.
  2:{ subst ts i. rewrite skipn_app, skipn_all2 by lia. replace (S (S (length low)) - length low)%nat with 2%nat by lia. reflexivity. }
  replace (zlen X / MBLOCK) with cx by (unfold MBLOCK; lia).
  rewrite <- !zlen_hash_tree, hash_tree_cons, zlen_app.
  (* where things are in f *)
  assert (Hft : exists Q', f = P ++ hash_tree U ++ Y ++ X ++ Q').
  { exists (hash_tree low ++ Q). rewrite Hf, Hts. unfold hash_tree.
    rewrite rev_app_distr, concat_app. cbn [rev]. rewrite !concat_app. cbn [concat]. rewrite !app_nil_r, <- !app_assoc. reflexivity. }
  destruct Hft as [Q' Hft].
  assert (Hlf : zlen f = zlen P + zlen (hash_tree U) + zlen Y + zlen X + zlen Q') by (rewrite Hft; zlia).
  pose proof (zlen_nonneg P). pose proof (zlen_nonneg Q'). pose proof (zlen_nonneg (hash_tree U)). pose proof (zlen_nonneg Y).
  assert (HY : exists cy, 0 < cy /\ zlen Y = 4096 * cy /\ cy = ceil128 cx /\ (U = [] \/ sized cy U)).
  { inversion Hl; subst l; cbn [map] in Hmap; injection Hmap as HYl HUm.
    - exists 1. split; [lia|]. split; [lia|]. split; [unfold ceil128; lia|]. left. now destruct U.
    - exists (ceil128 cx). split; [unfold ceil128; lia|]. split; [exact HYl|]. split; [reflexivity|]. right. eexists. eauto. }
  destruct HY as (cy & Hcy & HYl & Hcyx & HsU).
  assert (Hfit : 32 * cx <= zlen Y) by (rewrite HYl, Hcyx; unfold ceil128; lia).
  assert (Hn0 : Z.of_nat (Z.to_nat cx) = cx) by lia.
  destruct (finish_level_verify (mk_salt c) (Z.to_nat cx) (zlen P + (zlen (hash_tree U) + zlen Y)) (zlen P + zlen (hash_tree U)))
    as [F1 F2]; [lia..|]. rewrite Hn0 in F1.
  assert (EX : slice (zlen P + (zlen (hash_tree U) + zlen Y)) (4096 * cx) f = X).
  { rewrite Hft, !app_assoc. rewrite <- (app_assoc _ X). apply slice_app_exact; zlia. }
  assert (EY : slice (zlen P + zlen (hash_tree U)) (32 * cx) f = ztake (32 * cx) Y).
  { rewrite Hft, app_assoc. rewrite slice_app_r by zlia.
    replace (zlen P + zlen (hash_tree U) - zlen (P ++ hash_tree U)) with 0 by zlia.
    rewrite slice_0, ztake_app_l by lia. reflexivity. }
  rewrite EX, EY in F1.
  specialize (IH (S i) Y (low ++ [X]) cy). destruct IH as [I1 I2]; auto.
  { subst ts. rewrite <- app_assoc. reflexivity. }
  { rewrite app_length. cbn [length]. lia. }
  destruct F2 as [F2|F2]; rewrite F2; cbn [bind].
  - split; [|exact I2]. rewrite I1. split; intros C.
    + constructor; [|exact C]. replace (zlen X / 4096) with cx by lia. now apply F1.
    + inversion C; auto.
  - split; [|now right]. split; [discriminate|]. intros C. apply chain_inv in C as [C1 C2].
    replace (zlen X / 4096) with cx in C1 by lia. apply F1 in C1. congruence.
Qed.

(* feeding the data *)
Lemma verify_data_loop_eq : forall k fuel c pos, (k <= fuel)%nat -> 0 <= pos -> pos + 4096 * Z.of_nat k <= zlen f ->
  exists chunks, concat chunks = slice pos (4096 * Z.of_nat k) f /\
  verify_data_loop sha (file_rd f) fuel c pos (4096 * Z.of_nat k) =
    do x <- write_chunks sha d c tt chunks; Ok (fst x).
Proof.
  induction k as [|k IH]; intros fuel c pos Hf Hp Hs.
  - exists []. split; [now rewrite slice_neg_len by lia|]. destruct fuel; reflexivity.
  - destruct fuel as [|fuel]; [lia|]. cbn [verify_data_loop].
    destruct (Z.eqb_spec (4096 * Z.of_nat (S k)) 0); [lia|]. unfold CHUNK.
    rewrite Z.min_r by lia. rewrite file_rd_in by lia. cbn [bind].
    set (b := slice pos 4096 f). fold d.
    destruct (merkle_write_chunk sha d c tt b) as [[c1 []]|e| |] eqn:E.
    + destruct (IH fuel c1 (pos + 4096)) as (ch & Hch & Heq); [lia..|].
      exists (b :: ch). split.
      * cbn [concat]. rewrite Hch. replace (4096 * Z.of_nat (S k)) with (4096 + 4096 * Z.of_nat k) by lia.
        rewrite slice_split by lia. reflexivity.
      * cbn [write_chunks]. rewrite E. cbn [bind fst].
        replace (4096 * Z.of_nat (S k) - 4096) with (4096 * Z.of_nat k) by lia. exact Heq.
    + exists [b; slice (pos + 4096) (4096 * Z.of_nat k) f]. split.
      * cbn [concat]. rewrite app_nil_r. replace (4096 * Z.of_nat (S k)) with (4096 + 4096 * Z.of_nat k) by lia.
        rewrite slice_split by lia. reflexivity.
      * cbn [write_chunks]. rewrite E. reflexivity.
    + exists [b; slice (pos + 4096) (4096 * Z.of_nat k) f]. split.
      * cbn [concat]. rewrite app_nil_r. replace (4096 * Z.of_nat (S k)) with (4096 + 4096 * Z.of_nat k) by lia.
        rewrite slice_split by lia. reflexivity.
      * cbn [write_chunks]. rewrite E. reflexivity.
    + exists [b; slice (pos + 4096) (4096 * Z.of_nat k) f]. split.
      * cbn [concat]. rewrite app_nil_r. replace (4096 * Z.of_nat (S k)) with (4096 + 4096 * Z.of_nat k) by lia.
        rewrite slice_split by lia. reflexivity.
      * cbn [write_chunks]. rewrite E. reflexivity.
Qed.

Theorem verify_merkle_exact P Q ts data_offset n expected salt :
  f = P ++ hash_tree ts ++ Q -> sized (n / 4096) ts ->
  0 < n -> n mod 4096 = 0 -> n <= 2^33 -> zlen salt <= 32 ->
  0 <= data_offset -> data_offset + n <= zlen f ->
  let data := slice data_offset n f in
  (verify_merkle_tree sha (file_rd f) data_offset n (zlen P) expected salt = Ok tt <->
   chain sha salt data ts /\ expected = root_hash sha salt data ts) /\
  (exists x, verify_merkle_tree sha (file_rd f) data_offset n (zlen P) expected salt = x /\
     (x = Ok tt \/ x = Err E_VERIFY_FAIL \/ x = Err E_BAD_ROOT_HASH)).
Proof.
  intros Hf (l & Hl & Hmap) Hp Ha Hmax Hsalt Ho Hon data.
  assert (Hdata : zlen data = n) by (apply zlen_slice_in; lia).
  assert (Hll : length ts = length l) by (pose proof (f_equal (@length Z) Hmap) as G; rewrite !map_length in G; exact G).
  assert (Hzl : zlen l <= 3).
  { apply (tree_blocks_levels _ _ Hl 3); [lia|]. change (128^3) with (2^21). lia. }
  destruct (init_accepts d tt n salt (zlen P) false l) as (c & Hinit & Hc); auto; [lia|].
  unfold verify_merkle_tree. fold d. rewrite Hinit. cbn [bind].
  destruct (verify_data_loop_eq (Z.to_nat (n / 4096)) (Z.to_nat (n / CHUNK + 1)) c data_offset) as (chunks & Hch & Hloop);
    [unfold CHUNK; lia|lia|lia|].
  replace (4096 * Z.of_nat (Z.to_nat (n / 4096))) with n in Hch, Hloop by lia.
  rewrite Hloop. fold data in Hch.
  rewrite write_chunks_concat.
  2:{ unfold blk_ok. rewrite (ic_block _ _ _ _ _ Hc). lia. }
  2:{ rewrite (ic_input _ _ _ _ _ Hc), (ic_block _ _ _ _ _ Hc), Hch. lia. }
  rewrite Hch.
  assert (Hlay : ctx_layout c ts).
  { split; [rewrite (ic_levels _ _ _ _ _ Hc); unfold zlen; lia|]. split.
    - intros i Hi. rewrite (ic_lens _ _ _ _ _ Hc) by lia.
      pose proof (map_nth zlen ts [] i) as G1. rewrite Hmap in G1.
      change (zlen (@nil Z)) with (4096 * 0) in G1. rewrite map_nth in G1. exact G1.
    - intros i Hi. rewrite (ic_offs _ _ _ _ _ Hc) by lia.
      unfold bytes in *. rewrite <- skipn_map, Hmap, skipn_map, zsum_map. reflexivity. }
  set (c0 := n / 4096) in *.
  assert (exists L0 U, ts = L0 :: U /\ zlen L0 = 4096 * ceil128 c0 /\ (U = [] \/ sized (ceil128 c0) U) /\
     (c0 <= 128 -> U = [])) as (L0 & U & EU & EL0 & HU & HU1).
  { inversion Hl; subst l; destruct ts as [|L0 U]; try discriminate; cbn [map] in Hmap; injection Hmap as HYl HUm.
    - exists L0, U. assert (U = []) by now destruct U. split; [reflexivity|]. split; [unfold ceil128; lia|]. auto.
    - exists L0, U. split; [reflexivity|]. split; [exact HYl|]. split; [right; eexists; eauto|lia]. }
  assert (Hc0 : 0 < c0) by (unfold c0; lia).
  pose proof (zlen_nonneg P). pose proof (zlen_nonneg Q).
  assert (HzU : 0 <= zsum (map zlen U)). { rewrite <- zlen_hash_tree. apply zlen_nonneg. }
  assert (Hoff0 : nth 0 (mk_level_offset c) 0 = zsum (map zlen U)).
  { destruct Hlay as (_ & _ & G). rewrite G by (rewrite EU; cbn [length]; lia). rewrite EU. reflexivity. }
  assert (Hft : f = P ++ hash_tree U ++ L0 ++ Q) by (rewrite Hf, EU, hash_tree_cons, <- app_assoc; reflexivity).
  assert (Hlf : zlen f = zlen P + zsum (map zlen U) + zlen L0 + zlen Q) by (rewrite Hft; zl; rewrite zlen_hash_tree; lia).
  assert (Hfit : 32 * c0 <= zlen L0) by (rewrite EL0; unfold ceil128; lia).
  assert (EL : slice (zlen P + zsum (map zlen U)) (32 * c0) f = ztake (32 * c0) L0).
  { rewrite Hft, app_assoc. rewrite slice_app_r by (zl; rewrite ?zlen_hash_tree; lia).
    replace (zlen P + zsum (map zlen U) - zlen (P ++ hash_tree U)) with 0 by (zl; rewrite ?zlen_hash_tree; lia).
    rewrite slice_0, ztake_app_l by lia. reflexivity. }
  assert (Hdn : zlen data / 4096 = c0) by (rewrite Hdata; reflexivity).
  destruct (Z.eq_dec n 4096) as [Hn1|Hn1].
  - (* single block *)
    rewrite write_single by (rewrite ?(ic_block _ _ _ _ _ Hc), ?(ic_input _ _ _ _ _ Hc); lia).
    rewrite (ic_offset _ _ _ _ _ Hc), (ic_chunk _ _ _ _ _ Hc), (ic_salt _ _ _ _ _ Hc), Hoff0, Z.add_0_l.
    set (h := sha 1 (salt ++ data)). assert (Eh : zlen h = 32) by (apply zlen_sha256; auto).
    assert (Hc1 : c0 = 1) by (unfold c0; lia).
    assert (Hh : block_hashes sha salt (Z.to_nat c0) data = h).
    { rewrite Hc1. change (Z.to_nat 1) with 1%nat. cbn [block_hashes].
      rewrite ztake_all by lia. apply app_nil_r. }
    assert (HUn : U = []) by (apply HU1; lia).
    assert (Hr : root_hash sha salt data ts = h) by (unfold root_hash; rewrite Hdata, Hn1; reflexivity).
    rewrite Hr.
    assert (Hchain : chain sha salt data ts <-> slice (zlen P + zsum (map zlen U)) 32 f = h).
    { rewrite EU, HUn. replace 32 with (32 * c0) by lia. rewrite HUn in EL. rewrite EL. split.
      - intros C. apply chain_inv in C as [C1 C2]. rewrite Hdn in C1. now rewrite C1.
      - intros E. constructor; [|constructor]. rewrite Hdn, Hh. exact E. }
    rewrite Hchain.
    destruct (verify_wr_iff (zlen P + zsum (map zlen U)) h) as [W1 W2]; [lia..|]. rewrite Eh in W1.
    destruct W2 as [W2|W2]; rewrite W2; cbn [bind fst].
    + unfold merkle_finish. cbn [mk_block_done mk_finished mk_buffer bind snd].
      destruct (bytes_eqb h expected) eqn:E.
      * apply bytes_eqb_eq in E. split; [|eauto]. split; [intros _; split; [now apply W1|congruence]|reflexivity].
      * apply bytes_eqb_neq in E. split; [|eauto]. split; [discriminate|intros [_ ?]; congruence].
    + split; [|eauto]. split; [discriminate|]. intros [E _]. apply W1 in E. congruence.
  - destruct (write_blocks sha d (Z.to_nat c0) data c tt) as (c' & Hset & Hfin & Hw).
    { lia. } { apply (ic_block _ _ _ _ _ Hc). } { rewrite (ic_input _ _ _ _ _ Hc). lia. }
    rewrite (ic_offset _ _ _ _ _ Hc), (ic_chunk _ _ _ _ _ Hc), (ic_salt _ _ _ _ _ Hc), Hoff0, Z.add_0_l in Hw.
    rewrite Hw.
    destruct (write_hashes_verify salt (Z.to_nat c0) (zlen P + zsum (map zlen U)) data) as [W1 W2]; [lia..|].
    replace (32 * Z.of_nat (Z.to_nat c0)) with (32 * c0) in W1 by lia. rewrite EL in W1.
    destruct W2 as [W2|W2]; rewrite W2; cbn [bind fst].
    2:{ split; [|eauto]. split; [discriminate|]. intros [C _]. rewrite EU in C. apply chain_inv in C as [C1 C2].
        rewrite Hdn in C1. apply W1 in C1. congruence. }
    unfold merkle_finish. rewrite Hfin, (ic_finished _ _ _ _ _ Hc).
    destruct Hset as (G1 & G2 & G3 & G4 & G5 & G6 & G7).
    assert (Hlay' : ctx_layout c' ts). { unfold ctx_layout. rewrite G1, G2, G3. exact Hlay. }
    rewrite G3, (ic_levels _ _ _ _ _ Hc).
    replace (Z.to_nat (zlen l - 1)) with (length U).
    2:{ unfold zlen. rewrite <- Hll, EU. cbn [length]. lia. }
    destruct (finish_levels_verify c' P Q ts Hlay' ltac:(rewrite G7; apply (ic_offset _ _ _ _ _ Hc)) Hf
       U 1%nat L0 [] (ceil128 c0)) as [F1 F2]; auto.
    { unfold ceil128. lia. }
    rewrite G6, (ic_salt _ _ _ _ _ Hc) in F1.
    assert (Hchain : chain sha salt data ts <-> chain sha salt L0 U).
    { rewrite EU. split; [intros C; now apply chain_inv in C|]. intros C. constructor; [|exact C].
      rewrite Hdn. now apply W1. }
    rewrite Hchain.
    destruct F2 as [F2|F2]; rewrite F2; cbn [bind].
    2:{ split; [|eauto]. split; [discriminate|]. intros [C _]. apply F1 in C. congruence. }
    assert (Hzl0 : 0 < zlen l). { unfold zlen. rewrite <- Hll, EU. cbn [length]. lia. }
    destruct (Z.eqb_spec (zlen l) 0); [lia|].
    destruct Hlay' as (_ & GL & GO). rewrite GL, GO by (rewrite EU; cbn [length]; lia).
    assert (Hlast : nth (length U) ts [] = last ts []).
    { rewrite EU. clear. generalize L0. induction U as [|x U IH]; intros; [reflexivity|]. exact (IH x). }
    rewrite Hlast. rewrite skipn_all2 by (rewrite EU; cbn [length]; lia). cbn [map zsum fold_right].
    assert (Hlast4 : zlen (last ts []) = 4096).
    { clear - Hl Hmap. revert ts Hmap. induction Hl as [c Hc|c l Hc Hl IH]; intros ts Hmap.
      - destruct ts as [|t [|]]; try discriminate. cbn [map] in Hmap. injection Hmap as E. cbn [last]. lia.
      - destruct ts as [|t ts]; [discriminate|]. cbn [map] in Hmap. injection Hmap as E1 E2.
        specialize (IH _ E2). destruct ts as [|t' ts]; [|exact IH].
        destruct l; [|discriminate]. inversion Hl. }
    rewrite Hlast4. change (Z.to_nat (4096 / MHASH)) with 128%nat.
    rewrite G7, (ic_offset _ _ _ _ _ Hc), G6, (ic_salt _ _ _ _ _ Hc), Z.add_0_r.
    assert (H4096 : 4096 <= zlen L0) by (rewrite EL0; unfold ceil128; lia).
    rewrite read_pieces_verify by (change (Z.of_nat 128) with 128; lia).
    cbn [bind snd]. change (32 * Z.of_nat 128) with 4096. change HASH_SHA256 with 1.
    assert (Htop : slice (zlen P) 4096 f = last ts []).
    { assert (exists rest, hash_tree ts = last ts [] ++ rest) as [rest Hr].
      { rewrite EU. unfold hash_tree.
        destruct (exists_last (l := L0 :: U)) as (pre & x & ->); [discriminate|].
        rewrite last_last, rev_app_distr. cbn [rev app concat]. eauto. }
      rewrite Hf, Hr, <- app_assoc. apply slice_app_exact; auto. }
    rewrite Htop.
    assert (Hr : root_hash sha salt data ts = sha 1 (salt ++ last ts [])).
    { unfold root_hash. destruct (Z.eqb_spec (zlen data) 4096); [lia|]. reflexivity. }
    rewrite Hr. destruct (bytes_eqb (sha 1 (salt ++ last ts [])) expected) eqn:E.
    + apply bytes_eqb_eq in E. split; [|eauto]. split; [intros _; split; [now apply F1|congruence]|reflexivity].
    + apply bytes_eqb_neq in E. split; [|eauto]. split; [discriminate|intros [_ ?]; congruence].
Qed.
End V.

(* ---- what acceptance means ---- *)
Section Binding.
Context (sha : hashfn) (Hg : good_hash sha) (salt : bytes).

Lemma salted_inj a b : sha 1 (salt ++ a) = sha 1 (salt ++ b) -> a = b \/ sha256_collision sha.
Proof.
  intros E. destruct (list_eq_dec Z.eq_dec a b); [now left|right].
  exists (salt ++ a), (salt ++ b). split; [|exact E]. intros G. apply app_inv_head in G. contradiction.
Qed.
Lemma block_hashes_inj : forall k a b, zlen a = 4096 * Z.of_nat k -> zlen b = 4096 * Z.of_nat k ->
  block_hashes sha salt k a = block_hashes sha salt k b -> a = b \/ sha256_collision sha.
Proof.
  induction k as [|k IH]; intros a b Ha Hb E.
  - left. rewrite (zlen_0_nil a), (zlen_0_nil b) by lia. reflexivity.
  - cbn [block_hashes] in E.
    assert (E1 : sha 1 (salt ++ ztake 4096 a) = sha 1 (salt ++ ztake 4096 b)).
    { apply (f_equal (ztake 32)) in E. rewrite !ztake_app_l in E by (rewrite zlen_sha256 by auto; lia).
      rewrite (ztake_all 32 (sha 1 (salt ++ ztake 4096 a))) in E by (rewrite zlen_sha256 by auto; lia).
      rewrite (ztake_all 32 (sha 1 (salt ++ ztake 4096 b))) in E by (rewrite zlen_sha256 by auto; lia). exact E. }
    rewrite E1 in E. apply app_inv_head in E.
    destruct (salted_inj _ _ E1) as [G1|]; [|now right].
    destruct (IH (zdrop 4096 a) (zdrop 4096 b) ltac:(rewrite zlen_zdrop; lia) ltac:(rewrite zlen_zdrop; lia) E) as [G2|]; [|now right].
    left. rewrite <- (ztake_zdrop 4096 a), <- (ztake_zdrop 4096 b). now rewrite G1, G2.
Qed.
Lemma chain_inj : forall ts1 ts2 d1 d2,
  map zlen ts1 = map zlen ts2 -> zlen d1 = zlen d2 -> zlen d1 mod 4096 = 0 ->
  Forall (fun t => zlen t mod 4096 = 0) ts1 ->
  chain sha salt d1 ts1 -> chain sha salt d2 ts2 -> ts1 <> [] -> last ts1 [] = last ts2 [] ->
  (ts1 = ts2 /\ d1 = d2) \/ sha256_collision sha.
Proof.
  induction ts1 as [|t1 ts1 IH]; intros ts2 d1 d2 Hm Hd Hdm Hal C1 C2 Hne Hlast; [congruence|].
  destruct ts2 as [|t2 ts2]; [discriminate|]. cbn [map] in Hm. injection Hm as Ht Hm.
  inversion C1 as [|? ? ? A1 B1]; subst. inversion C2 as [|? ? ? A2 B2]; subst. inversion Hal as [|? ? Hal1 Hal2]; subst.
  assert (Ht12 : (ts1 = ts2 /\ t1 = t2) \/ sha256_collision sha).
  { destruct ts1 as [|u ts1].
    - destruct ts2; [|discriminate]. cbn [last] in Hlast. auto.
    - destruct ts2 as [|u2 ts2]; [discriminate|].
      apply (IH (u2 :: ts2) t1 t2); auto; try discriminate. }
  destruct Ht12 as [[-> ->]|]; [|now right].
  pose proof (zlen_nonneg d1). rewrite <- Hd in A2. rewrite A1 in A2. apply block_hashes_inj in A2; [|lia..].
  destruct A2 as [->|]; [now left|now right].
Qed.
Lemma sized_aligned c ts : sized c ts -> Forall (fun t => zlen t mod 4096 = 0) ts /\ ts <> [].
Proof.
  intros (l & Hl & Hmap). split.
  - apply Forall_forall. intros t Ht. apply (in_map zlen) in Ht. rewrite Hmap in Ht.
    apply in_map_iff in Ht as (x & <- & _). lia.
  - intros ->. inversion Hl; subst l; discriminate.
Qed.
Lemma sized_same c ts1 ts2 : sized c ts1 -> sized c ts2 -> map zlen ts1 = map zlen ts2.
Proof.
  intros (l1 & H1 & M1) (l2 & H2 & M2). rewrite M1, M2. f_equal. eapply tree_blocks_fun; eauto.
Qed.
Theorem merkle_binding d1 d2 ts1 ts2 n :
  zlen d1 = n -> zlen d2 = n -> n mod 4096 = 0 -> 0 < n ->
  sized (n / 4096) ts1 -> sized (n / 4096) ts2 ->
  chain sha salt d1 ts1 -> chain sha salt d2 ts2 ->
  root_hash sha salt d1 ts1 = root_hash sha salt d2 ts2 ->
  sha256_collision sha \/ (d1 = d2 /\ (n <> 4096 -> ts1 = ts2)).
Proof.
  intros H1 H2 Hm Hp S1 S2 C1 C2 Hr. unfold root_hash in Hr. rewrite H1, H2 in Hr.
  destruct (sized_aligned _ _ S1) as [Hal Hne].
  destruct (Z.eqb_spec n 4096) as [->|Hn].
  - destruct (salted_inj _ _ Hr) as [->|]; [right; split; [reflexivity|lia]|now left].
  - destruct (salted_inj _ _ Hr) as [Hl|]; [|now left].
    destruct (chain_inj ts1 ts2 d1 d2) as [[-> ->]|]; auto; try lia.
    apply (sized_same _ _ _ S1 S2).
Qed.
(* a generated tree is a chain *)
Lemma hash_levels_chain d ls : hash_levels sha salt d ls -> chain sha salt d ls.
Proof.
  assert (E : forall d, ztake (32 * (zlen d / 4096)) (level_above sha salt d)
     = block_hashes sha salt (Z.to_nat (zlen d / 4096)) d).
  { intros x. unfold level_above.
    pose proof (zlen_block_hashes sha salt Hg (Z.to_nat (zlen x / 4096)) x) as E.
    pose proof (zlen_nonneg x).
    rewrite ztake_app_l by lia. apply ztake_all. lia. }
  induction 1; constructor; auto. constructor.
Qed.
Lemma hash_levels_sized d ls : hash_levels sha salt d ls -> zlen d mod 4096 = 0 -> 0 < zlen d ->
  sized (zlen d / 4096) ls.
Proof.
  intros H Hm Hp. destruct (tree_blocks_exists (zlen d / 4096)) as [l Hl]; [lia|].
  destruct (hash_levels_exists sha salt _ _ Hg Hl d) as (ls' & G1 & G2); [lia|].
  exists l. split; auto. now rewrite (hash_levels_fun _ _ _ _ H _ G1).
Qed.
End Binding.
