(* TransportFile.v -- files, copy loops and tree generation *)
From Verif Require Import Base BaseLemmas HeaderModel HashModel MerkleModel MerkleSpec MerkleSizes MerkleChunks MerkleProofs
  VerifyModel BspatchModel BspatchProofs BsdiffModel HsModel HsPatchModel LzModel TransportModel.

(* ---- file writes ---- *)
Lemma fwrite_0 f X : fwrite_at f 0 X = X ++ zdrop (zlen X) f.
Proof. pose proof (zlen_nonneg f). rewrite fwrite_at_in by lia. reflexivity. Qed.
Lemma fwrite_rehead g H0 H1 D : zlen H0 = zlen H1 ->
  fwrite_at (fwrite_at g 0 (H0 ++ D)) 0 H1 = fwrite_at g 0 (H1 ++ D).
Proof.
  intros E. rewrite !fwrite_0, !zlen_app, E, <- !app_assoc. f_equal. rewrite zdrop_app_r by lia.
  rewrite E, Z.sub_diag, zdrop_0. reflexivity.
Qed.
Lemma fwrite_more g X D : fwrite_at (fwrite_at g 0 X) (zlen X) D = fwrite_at g 0 (X ++ D).
Proof. rewrite (fwrite_at_app g 0 X D) by lia. reflexivity. Qed.
Lemma fwrite_under g H D : fwrite_at (fwrite_at g (zlen H) D) 0 H = fwrite_at g 0 (H ++ D).
Proof.
  pose proof (zlen_nonneg H) as NH. pose proof (zlen_nonneg D) as ND. pose proof (zlen_nonneg g) as Ng.
  rewrite !fwrite_0, zlen_app, <- app_assoc. f_equal. unfold fwrite_at.
  destruct (Z.eqb_spec (zlen D) 0) as [E|E].
  - rewrite (zlen_0_nil _ E). change (zlen (@nil Z)) with 0. rewrite Z.add_0_r. reflexivity.
  - destruct (Z.leb_spec (zlen H) (zlen g)).
    + unfold splice. rewrite zdrop_app_r; rewrite zlen_ztake; [|lia]. rewrite Z.min_l, Z.max_r, Z.sub_diag, zdrop_0 by lia. reflexivity.
    + rewrite app_assoc, zdrop_app_r; rewrite zlen_app, zlen_zeros; [|lia].
      rewrite Z.max_r by lia. replace (zlen H - _) with 0 by lia. rewrite zdrop_0, (zdrop_all _ g) by lia.
      now rewrite app_nil_r.
Qed.
Lemma zlen_fwrite f o d : 0 <= o -> zlen f <= zlen (fwrite_at f o d) /\ (d <> [] -> o + zlen d <= zlen (fwrite_at f o d)).
Proof.
  intros Ho. pose proof (zlen_nonneg f). pose proof (zlen_nonneg d). unfold fwrite_at.
  destruct (Z.eqb_spec (zlen d) 0) as [E|E].
  - split; [lia|]. intros N. elim N. now apply zlen_0_nil.
  - destruct (Z.leb_spec o (zlen f)).
    + unfold splice. rewrite !zlen_app, zlen_ztake, zlen_zdrop. lia.
    + rewrite !zlen_app, zlen_zeros. lia.
Qed.
Lemma ztake_fwrite f o d k : 0 <= k <= o -> k <= zlen f -> ztake k (fwrite_at f o d) = ztake k f.
Proof.
  intros Hk Hf. unfold fwrite_at. destruct (Z.eqb_spec (zlen d) 0); [reflexivity|].
  destruct (Z.leb_spec o (zlen f)).
  - unfold splice. rewrite ztake_app_l by (rewrite zlen_ztake; lia). rewrite ztake_ztake. f_equal. lia.
  - now rewrite ztake_app_l by lia.
Qed.

(* ---- the copy loop of the encoder ---- *)
Lemma tcopy_ok inp : forall fuel rd out wr left, 0 <= rd -> 0 <= wr -> 0 <= left -> rd + left <= zlen inp ->
  (left + 1023) / 1024 <= Z.of_nat fuel ->
  tcopy_loop fuel inp rd out wr left = (fwrite_at out wr (slice rd left inp), Ok tt).
Proof.
  induction fuel as [|k IH]; intros rd out wr left Hr Hw Hl Hi Hf.
  { assert (left = 0) as -> by lia. cbn [tcopy_loop Z.eqb]. now rewrite slice_neg_len, fwrite_at_nil by lia. }
  cbn [tcopy_loop].
  destruct (Z.eqb_spec left 0) as [->|N]; [rewrite slice_neg_len, fwrite_at_nil by lia; reflexivity|].
  set (chunk := if left >? 1024 then 1024 else left).
  assert (C : 0 < chunk <= left /\ (chunk = 1024 \/ chunk = left)).
  { unfold chunk. destruct (left >? 1024) eqn:E; lia. }
  clearbody chunk. unfold fread_at. rewrite zlen_slice_in by lia. rewrite Z.eqb_refl.
  rewrite IH by lia. replace left with (chunk + (left - chunk)) at 2 by lia.
  rewrite slice_split by lia. rewrite fwrite_at_app by lia. rewrite zlen_slice_in by lia. reflexivity.
Qed.

(* ---- feeding a decoder ---- *)
Section B.
Variable bld : build.
Lemma feed_list inp : forall fuel pos left, 0 <= pos -> 0 <= left -> pos + left <= zlen inp -> (left + 4095) / 4096 <= Z.of_nat fuel ->
  exists l, concat l = slice pos left inp /\ Forall (fun b : bytes => b <> []) l /\
    (forall h p qf ooff woff c f c1 f1, 0 <= woff ->
       bspatch_chunks qf ooff woff PATCH_BUF c f l = (c1, f1, Ok tt) ->
       decode_chunks bld fuel h p qf inp pos left (DPlain ooff woff c) f = (DPlain ooff woff c1, f1, pos + left, Ok tt)) /\
    (forall h p qf ooff woff ilen c f c1 f1, 0 <= woff ->
       hsp_chunks qf ooff woff PATCH_BUF ilen c f l = (c1, f1, Ok tt) ->
       decode_chunks bld fuel h p qf inp pos left (DHs ooff woff ilen c) f = (DHs ooff woff ilen c1, f1, pos + left, Ok tt)) /\
    (forall h p qf ooff woff c f c1 f1, 0 <= woff ->
       lzp_chunks _ qf ooff woff PATCH_BUF c f l = (c1, f1, Ok tt) ->
       decode_chunks bld fuel h p qf inp pos left (DLz ooff woff c) f = (DLz ooff woff c1, f1, pos + left, Ok tt)).
Proof.
  induction fuel as [|k IH]; intros pos left Hp Hl Hi Hf.
  { assert (left = 0) as -> by lia. exists []. rewrite slice_neg_len by lia. split; [reflexivity|]. split; [constructor|].
    split; [|split]; intros; cbn [decode_chunks Z.eqb bspatch_chunks hsp_chunks lzp_chunks] in *; rewrite Z.add_0_r; congruence. }
  destruct (Z.eqb_spec left 0) as [->|N].
  - exists []. rewrite slice_neg_len by lia. split; [reflexivity|]. split; [constructor|].
    split; [|split]; intros; cbn [decode_chunks Z.eqb bspatch_chunks hsp_chunks lzp_chunks] in *; rewrite Z.add_0_r; congruence.
  - set (n := Z.min left CHUNK). assert (C : 0 < n <= left /\ (n = 4096 \/ n = left)) by (unfold n, CHUNK; lia).
    destruct (IH (pos + n) (left - n)) as (l & E & NE & P & Hs & Lz); try lia.
    assert (Ln : zlen (slice pos n inp) = n) by (apply zlen_slice_in; lia).
    exists (slice pos n inp :: l). split; [|split; [|split; [|split]]].
    + cbn [concat]. rewrite E. replace left with (n + (left - n)) at 2 by lia. rewrite slice_split by lia. reflexivity.
    + constructor; [|exact NE]. intros Z0. rewrite Z0 in Ln. change (zlen (@nil Z)) with 0 in Ln. lia.
    + intros h p qf ooff woff c f c1 f1 Hw R. cbn [decode_chunks]. destruct (Z.eqb_spec left 0) as [|_]; [lia|].
      fold n. unfold fread_at. rewrite Ln, Z.eqb_refl. cbn [decode_chunk]. destruct (Z.ltb_spec woff 0) as [|_]; [lia|].
      cbn [bspatch_chunks] in R. destruct (bspatch_write qf ooff woff PATCH_BUF c f (slice pos n inp)) as [[c2 f2] [[]|e| |]];
        try discriminate. rewrite (P _ _ _ _ _ _ _ _ _ Hw R). do 2 f_equal; lia.
    + intros h p qf ooff woff ilen c f c1 f1 Hw R. cbn [decode_chunks]. destruct (Z.eqb_spec left 0) as [|_]; [lia|].
      fold n. unfold fread_at. rewrite Ln, Z.eqb_refl. cbn [decode_chunk]. destruct (Z.ltb_spec woff 0) as [|_]; [lia|].
      cbn [hsp_chunks] in R. destruct (hsp_write qf ooff woff PATCH_BUF ilen c f (slice pos n inp)) as [[c2 f2] [[]|e| |]];
        try discriminate. rewrite (Hs _ _ _ _ _ _ _ _ _ _ Hw R). do 2 f_equal; lia.
    + intros h p qf ooff woff c f c1 f1 Hw R. cbn [decode_chunks]. destruct (Z.eqb_spec left 0) as [|_]; [lia|].
      fold n. unfold fread_at. rewrite Ln, Z.eqb_refl. cbn [decode_chunk]. destruct (Z.ltb_spec woff 0) as [|_]; [lia|].
      cbn [lzp_chunks] in R. destruct (lzp_write _ qf ooff woff PATCH_BUF c f (slice pos n inp)) as [[c2 f2] [[]|e| |]];
        try discriminate. rewrite (Lz _ _ _ _ _ _ _ _ _ Hw R). do 2 f_equal; lia.
Qed.
Lemma s64_id x : - 2^63 <= x < 2^63 -> s64 x = x.
Proof. intros H. unfold s64. rewrite Z.mod_small by lia. lia. Qed.
Lemma feed_copy h p qf inp : forall fuel pos left off f, 0 <= pos -> 0 <= left -> pos + left <= zlen inp -> (left + 4095) / 4096 <= Z.of_nat fuel ->
  0 <= data_pos h p -> 0 <= off -> data_pos h p + off + left < 2^63 ->
  decode_chunks bld fuel h p qf inp pos left (DCopy off) f =
    (DCopy (off + left), fwrite_at f (data_pos h p + off) (slice pos left inp), pos + left, Ok tt).
Proof.
  induction fuel as [|k IH]; intros pos left off f Hp Hl Hi Hf Hd Ho Hb.
  { assert (left = 0) as -> by lia. cbn [decode_chunks Z.eqb]. rewrite slice_neg_len, fwrite_at_nil, !Z.add_0_r by lia. reflexivity. }
  cbn [decode_chunks].
  destruct (Z.eqb_spec left 0) as [->|N].
  - rewrite slice_neg_len, fwrite_at_nil, !Z.add_0_r by lia. reflexivity.
  - set (n := Z.min left CHUNK). assert (C : 0 < n <= left /\ (n = 4096 \/ n = left)) by (unfold n, CHUNK; lia). clearbody n.
    assert (Ln : zlen (slice pos n inp) = n) by (apply zlen_slice_in; lia).
    unfold fread_at. rewrite Ln, Z.eqb_refl. cbn [decode_chunk]. rewrite s64_id by lia.
    destruct (Z.ltb_spec (data_pos h p + off) 0); [lia|]. rewrite Ln, IH by lia.
    assert (E : slice pos left inp = slice pos n inp ++ slice (pos + n) (left - n) inp).
    { rewrite <- slice_split by lia. f_equal. lia. }
    rewrite E, fwrite_at_app by lia. rewrite Ln, !Z.add_assoc.
    replace (off + n + (left - n)) with (off + left) by lia. replace (pos + n + (left - n)) with (pos + left) by lia. reflexivity.
Qed.
End B.

(* ---- tree generation ---- *)
Lemma file_io_like : mem_like file_io.
Proof.
  split; intros; cbn [file_io io_wr io_rd].
  - destruct (Z.ltb_spec o 0); [lia|]. pose proof (zlen_nonneg b). rewrite fwrite_at_in by lia. reflexivity.
  - unfold file_rd, fread_at. destruct (Z.ltb_spec o 0); [lia|]. rewrite zlen_slice_in by lia. now rewrite Z.eqb_refl.
Qed.
Lemma zero_fill_file : forall k fuel s pos, (k < fuel)%nat -> 0 <= pos -> 32 * Z.of_nat k < 2^64 ->
  zero_fill fuel file_io s pos (32 * Z.of_nat k) = Ok (fwrite_at s pos (zeros (32 * Z.of_nat k))).
Proof.
  induction k as [|k IH]; intros fuel s pos Hf Hp Hb; (destruct fuel as [|fuel]; [lia|]); cbn [zero_fill].
  - change (32 * Z.of_nat 0) with 0. cbn [Z.eqb]. change (zeros 0) with (@nil Z). now rewrite fwrite_at_nil.
  - destruct (Z.eqb_spec (32 * Z.of_nat (S k)) 0); [lia|]. cbn [file_io io_wr]. destruct (Z.ltb_spec pos 0); [lia|]. cbn [bind].
    unfold MHASH, u64. rewrite Z.mod_small by lia. replace (32 * Z.of_nat (S k) - 32) with (32 * Z.of_nat k) by lia.
    fold file_io. rewrite IH by lia. f_equal. replace (32 * Z.of_nat (S k)) with (32 + 32 * Z.of_nat k) by lia.
    rewrite <- zeros_app by lia. rewrite fwrite_at_app by lia. rewrite zlen_zeros. f_equal.
Qed.
Definition tree_ctx (off total : Z) (c : mctx) : Prop :=
  mk_offset c = off /\ 0 <= nth 0 (mk_level_offset c) 0 /\ 0 <= mk_chunk_counter c /\ mk_tree_length c = total.
Lemma writes_above sha off total : 0 <= off -> forall fuel c s data c' s', tree_ctx off total c -> off <= zlen s ->
  write_loop sha file_io fuel c s data = Ok (c', s') ->
  tree_ctx off total c' /\ off <= zlen s' /\ ztake off s' = ztake off s.
Proof.
  intros Ho. induction fuel as [|k IH]; intros c s data c' s' T L; cbn [write_loop].
  - destruct (zlen data =? 0); [|discriminate]. intros E. injection E as <- <-. auto.
  - destruct (zlen data =? 0); [intros E; injection E as <- <-; auto|].
    set (n := Z.min (mk_block_counter c) (zlen data)). set (run := (if mk_block_counter c =? MBLOCK then mk_salt c else mk_running c) ++ ztake n data).
    destruct T as (T1 & T2 & T3 & T4).
    destruct (mk_block_counter c - n =? 0).
    + cbn [file_io io_wr]. rewrite T1. destruct (Z.ltb_spec (off + (mk_chunk_counter c + nth 0 (mk_level_offset c) 0)) 0); [lia|]. cbn [bind].
      set (s1 := fwrite_at s (off + (mk_chunk_counter c + nth 0 (mk_level_offset c) 0)) (sha HASH_SHA256 run)).
      assert (L1 : off <= zlen s1). { destruct (zlen_fwrite s (off + (mk_chunk_counter c + nth 0 (mk_level_offset c) 0)) (sha HASH_SHA256 run)) as [G _]; [lia|]. unfold s1. lia. }
      assert (K : ztake off s1 = ztake off s) by (apply ztake_fwrite; lia).
      assert (TB : forall b, tree_ctx off total (mk_block_done c (sha HASH_SHA256 run) b)).
      { intros b. split; [exact T1|]. split; [exact T2|]. split; [cbn [mk_block_done mk_chunk_counter]; unfold MHASH; lia|exact T4]. }
      destruct (mk_input_length c =? MBLOCK).
      * intros E. injection E as <- <-. auto.
      * intros E. destruct (IH _ _ _ _ _ (TB _) L1 E) as (A & B & C). split; [exact A|]. split; [exact B|]. congruence.
    + intros E. apply (IH (mk_progress c run (mk_block_counter c - n)) s _ _ _) in E; auto. split; [exact T1|]. auto.
Qed.
Lemma generate_chunks sha off total : forall fuel c f pos left, 0 <= pos -> 0 <= left -> pos + left <= off -> off <= zlen f ->
  (left + 4095) / 4096 <= Z.of_nat fuel -> tree_ctx off total c ->
  exists l, concat l = slice pos left f /\
    forall c' f', write_chunks sha file_io c f l = Ok (c', f') ->
      generate_loop sha fuel c f pos left = Ok (c', f') /\ tree_ctx off total c'.
Proof.
  induction fuel as [|k IH]; intros c f pos left Hp Hl Hb Hf Hk T.
  { assert (left = 0) as -> by lia. exists []. rewrite slice_neg_len by lia. split; [reflexivity|]. intros c' f' E. cbn [write_chunks] in E.
    injection E as <- <-. cbn [generate_loop Z.eqb]. auto. }
  destruct (Z.eqb_spec left 0) as [->|N].
  - exists []. rewrite slice_neg_len by lia. split; [reflexivity|]. intros c' f' E. cbn [write_chunks] in E.
    injection E as <- <-. cbn [generate_loop Z.eqb]. auto.
  - set (n := Z.min left CHUNK). assert (C : 0 < n <= left /\ (n = 4096 \/ n = left)) by (unfold n, CHUNK; lia).
    assert (Ln : zlen (slice pos n f) = n) by (apply zlen_slice_in; lia).
    assert (R : file_rd f pos n = Ok (slice pos n f)).
    { unfold file_rd, fread_at. destruct (Z.ltb_spec pos 0); [lia|]. now rewrite Ln, Z.eqb_refl. }
    destruct (merkle_write_chunk sha file_io c f (slice pos n f)) as [[c1 f1]|e| |] eqn:W.
    + destruct (writes_above sha off total ltac:(lia) _ _ _ _ _ _ T Hf W) as (T1 & L1 & K1).
      destruct (IH c1 f1 (pos + n) (left - n)) as (l & E & G); auto; try lia.
      exists (slice pos n f :: l). split.
      * cbn [concat]. rewrite E. replace left with (n + (left - n)) at 2 by lia. rewrite slice_split by lia. f_equal.
        assert (S1 : forall g : bytes, off <= zlen g -> slice (pos + n) (left - n) g = slice (pos + n) (left - n) (ztake off g)).
        { intros g Hg. rewrite <- (ztake_zdrop off g) at 1. apply slice_app_l; [lia|]. rewrite zlen_ztake. lia. }
        rewrite (S1 f1 L1), (S1 f Hf). now rewrite K1.
      * intros c' f'. cbn [write_chunks]. rewrite W. cbn [bind]. intros E2. destruct (G c' f' E2) as [G1 G2]. split; [|exact G2].
        cbn [generate_loop]. destruct (Z.eqb_spec left 0) as [|_]; [lia|]. fold n. rewrite R, W. cbn [bind fst snd]. exact G1.
    + exists [slice pos n f; slice (pos + n) (left - n) f]. split.
      * cbn [concat]. rewrite app_nil_r. rewrite <- slice_split by lia. f_equal. lia.
      * intros c' f'. cbn [write_chunks]. rewrite W. discriminate.
    + exists [slice pos n f; slice (pos + n) (left - n) f]. split.
      * cbn [concat]. rewrite app_nil_r. rewrite <- slice_split by lia. f_equal. lia.
      * intros c' f'. cbn [write_chunks]. rewrite W. discriminate.
    + exists [slice pos n f; slice (pos + n) (left - n) f]. split.
      * cbn [concat]. rewrite app_nil_r. rewrite <- slice_split by lia. f_equal. lia.
      * intros c' f'. cbn [write_chunks]. rewrite W. discriminate.
Qed.
(* the whole generation: [X] is what is in the file in front of the tree *)
Lemma generate_tree sha g X pos data salt ls : good_hash sha ->
  0 <= pos -> pos + zlen data <= zlen X -> slice pos (zlen data) X = data ->
  0 < zlen data <= 2^33 -> zlen data mod 4096 = 0 -> zlen salt <= 32 -> hash_levels sha salt data ls -> zlen X < 2^62 ->
  exists c f1, merkle_init file_io (fwrite_at g 0 X) (zlen data) salt (zlen X) true = (c, Ok f1) /\
    exists c' f', generate_loop sha (Z.to_nat (zlen data / CHUNK + 1)) c f1 pos (zlen data) = Ok (c', f') /\
      merkle_get_size c' = zlen (hash_tree ls) /\
      exists root, merkle_finish sha file_io c' f' = Ok (fwrite_at g 0 (X ++ hash_tree ls), root).
Proof.
  intros Hg Hp Hb Hd Hn Ha Hs Hls HX.
  set (T := zlen (hash_tree ls)). pose proof (zlen_nonneg (hash_tree ls)) as NT. fold T in NT.
  pose proof (zlen_nonneg X) as NX. pose proof (zlen_nonneg g) as Ng.
  set (B := zdrop T (zdrop (zlen X) g)).
  assert (E0 : fwrite_at (fwrite_at g 0 X) (zlen X) (zeros T) = X ++ zeros T ++ B).
  { rewrite fwrite_more, fwrite_0, zlen_app, zlen_zeros, <- app_assoc, Z.max_r by lia. unfold B. rewrite zdrop_zdrop by lia.
    do 3 f_equal. lia. }
  assert (E1 : X ++ hash_tree ls ++ B = fwrite_at g 0 (X ++ hash_tree ls)).
  { rewrite fwrite_0, zlen_app, <- app_assoc. unfold B. rewrite zdrop_zdrop by lia. fold T. do 3 f_equal. lia. }
  destruct (tree_blocks_exists (zlen data / 4096)) as [l Hl]; [lia|].
  assert (Hdata : zlen data = 4096 * (zlen data / 4096)) by lia.
  destruct (hash_levels_exists sha salt _ _ Hg Hl data Hdata) as (ls' & Hls' & Hmap).
  rewrite <- (hash_levels_fun _ _ _ _ Hls _ Hls') in Hmap. clear ls' Hls'.
  assert (Hzl : zlen l <= 3). { apply (tree_blocks_levels _ _ Hl 3); [lia|]. change (128^3) with (2^21). lia. }
  assert (Hsum : T = 4096 * zsum l). { unfold T. rewrite zlen_hash_tree, Hmap, zsum_map. reflexivity. }
  pose proof (tree_blocks_sum _ _ Hl) as [Hs1 Hs2].
  destruct (init_accepts file_io (fwrite_at g 0 X) (zlen data) salt (zlen X) true l) as (c & Hinit & Hc); auto; [lia|].
  destruct (init_accepts file_io (X ++ zeros T ++ B) (zlen data) salt (zlen X) false l) as (c0 & Hinit0 & Hc0); auto; [lia|].
  assert (EC : c0 = c).
  { unfold merkle_init in Hinit, Hinit0.
    destruct (negb (zlen data mod MBLOCK =? 0)); [discriminate|]. destruct (32 <? zlen salt); [discriminate|].
    destruct (level_loop 5 0 (zlen data) (repeat 0 4) 0) as [[lens total] [lv|e| |]]; try discriminate.
    injection Hinit as <- _. injection Hinit0 as <-. reflexivity. }
  subst c0. clear Hc0.
  assert (Hz : zero_fill (Z.to_nat (4096 * zsum l / 32 + 1)) file_io (fwrite_at g 0 X) (zlen X) (4096 * zsum l) = Ok (X ++ zeros T ++ B)).
  { replace (4096 * zsum l) with (32 * Z.of_nat (Z.to_nat (128 * zsum l))) by lia.
    rewrite zero_fill_file; [|lia|lia|lia]. replace (32 * Z.of_nat (Z.to_nat (128 * zsum l))) with T by lia. now rewrite E0. }
  rewrite Hz in Hinit. exists c, (X ++ zeros T ++ B). split; [exact Hinit|].
  assert (TC : tree_ctx (zlen X) T c).
  { split; [exact (ic_offset _ _ _ _ _ Hc)|]. split; [|split; [rewrite (ic_chunk _ _ _ _ _ Hc); lia|rewrite (ic_tree _ _ _ _ _ Hc); lia]].
    rewrite (ic_offs _ _ _ _ _ Hc); [|destruct l; [inversion Hl|cbn [length]; lia]].
    assert (Forall (fun x => 0 < x) (skipn 1 l)) as F. { apply Forall_skipn'. clear - Hl. induction Hl; constructor; auto; unfold ceil128; lia. }
    clear - F. induction F as [|x r Hx _ IH]; cbn [zsum fold_right] in *; [lia|]. fold (zsum r) in *. lia. }
  pose proof (zlen_nonneg B) as NB. assert (Lf : zlen (X ++ zeros T ++ B) = zlen X + T + zlen B) by (rewrite !zlen_app, zlen_zeros; lia).
  destruct (generate_chunks sha (zlen X) T (Z.to_nat (zlen data / CHUNK + 1)) c (X ++ zeros T ++ B) pos (zlen data)) as (ch & Ech & G);
    auto; try lia. { unfold CHUNK. lia. }
  rewrite slice_app_l, Hd in Ech by lia.
  destruct (merkle_run sha file_io Hg file_io_like X (zeros T) B data salt ch false ls (zlen data)) as (c2 & s2 & I2 & _ & c' & s' & W & F); auto; try lia.
  { rewrite zlen_zeros. unfold T. lia. }
  { right. rewrite zlen_zeros. f_equal. lia. }
  rewrite Hinit0 in I2. injection I2 as <- <-. destruct (G _ _ W) as [G1 G2]. exists c', s'. split; [exact G1|].
  split; [exact (proj2 (proj2 (proj2 G2)))|]. rewrite E1 in F. eexists. exact F.
Qed.
