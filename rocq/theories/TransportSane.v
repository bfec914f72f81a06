(* TransportSane.v -- where a successful decode wrote, whatever the package *)
From Coq Require Import Lia.
From Verif Require Import Base BaseLemmas HeaderModel HeaderSpec CodecProofs PartProofs CrcModel HashModel MerkleModel MerkleSpec MerkleSizes MerkleChunks MerkleProofs VerifyModel VerifySpec PkgSpec PkgProofs
  BspatchModel BspatchProofs BspatchSafe HsPatchModel HsPatchDec HsPatchFinal LzModel LzSpec LzFinal TransportModel
  TransportSpec TransportFile TransportLay TransportEncode TransportDecode TransportMain TransportRefuse TransportTotal TransportSound.
Local Open Scope Z_scope.
Local Open Scope list_scope.

(* ---- patches write one contiguous run ---- *)
Definition wrote (woff : Z) (c : bsctx) (f : bytes) (c1 : bsctx) (f1 : bytes) : Prop :=
  exists x : bytes, f1 = fwrite_at f (woff + bs_wpos c) x /\ bs_wpos c1 = bs_wpos c + zlen x.
Definition exok (c : bsctx) : Prop := 0 <= bs_wpos c /\ (bs_state c = BExtra -> 0 <= bs_extra c).
Lemma wrote_refl woff c f c1 : bs_wpos c1 = bs_wpos c -> wrote woff c f c1 f.
Proof. intros E. exists []. rewrite fwrite_at_nil. split; [reflexivity|]. change (zlen (@nil Z)) with 0. lia. Qed.
Lemma wrote_trans woff c f c1 f1 c2 f2 : 0 <= woff -> 0 <= bs_wpos c -> wrote woff c f c1 f1 -> wrote woff c1 f1 c2 f2 -> wrote woff c f c2 f2.
Proof.
  intros W P (x & E1 & L1) (y & E2 & L2). exists (x ++ y). rewrite fwrite_at_app by lia. rewrite zlen_app, E2, L1, E1. split; [f_equal; lia|lia].
Qed.
Lemma zlen_add_bytes a : forall b, zlen a = zlen b -> zlen (add_bytes a b) = zlen a.
Proof.
  induction a as [|x a IH]; intros [|y b] E; rewrite ?zlen_cons in *; change (zlen (@nil Z)) with 0 in *; try (pose proof (zlen_nonneg a); lia); try (pose proof (zlen_nonneg b); lia); [reflexivity|].
  cbn [add_bytes]. rewrite zlen_cons, IH by lia. lia.
Qed.
Lemma bs_next_wpos c c2 : bs_next c = Ok c2 -> bs_wpos c2 = bs_wpos c /\ bs_state c2 = BFill.
Proof. unfold bs_next. destruct (in_i64 _); [|discriminate]. intros E. injection E as <-. split; reflexivity. Qed.
Lemma bs_loop_wrote o ooff woff blen : 0 <= woff -> forall fuel c f pp c1 f1,
  exok c -> bs_loop o ooff woff blen fuel c f pp = (c1, f1, Ok tt) -> wrote woff c f c1 f1 /\ exok c1.
Proof.
  intros W. induction fuel as [|k IH]; intros c f pp c1 f1 [P X] E; [discriminate|].
  cbn [bs_loop] in E. destruct (bs_state c) eqn:S.
  - destruct (zlen (bs_ctrl c) <? 24).
    + destruct (_ =? 24).
      * apply IH in E; [|split; [exact P|discriminate]]. destruct E as [E1 E2]. split; [|exact E2]. exact E1.
      * injection E as <- <-. split; [apply wrote_refl; reflexivity|]. split; [exact P|discriminate].
    + injection E as <- <-. split; [apply wrote_refl; reflexivity|]. split; [exact P|]. rewrite S. discriminate.
  - destruct (zlen pp >? 0).
    + apply IH in E; [|split; [exact P|discriminate]]. exact E.
    + injection E as <- <-. split; [apply wrote_refl; reflexivity|]. split; [exact P|discriminate].
  - cbv zeta in E. destruct (Z.ltb_spec (Z.min (Z.min (zlen pp) (bs_diff c)) blen) 0) as [|Hn]; [discriminate|].
    remember (Z.min (Z.min (zlen pp) (bs_diff c)) blen) as n eqn:En.
    destruct (negb _); [discriminate|]. destruct (read_origin o (ooff + bs_opos c) n) as [b| | |]; try discriminate.
    destruct (Z.eqb_spec (zlen b) n) as [Lb|]; [|discriminate].
    cbn [bs_ctrl bs_diff bs_extra bs_adj bs_opos bs_wpos] in E.
    assert (LX : zlen (add_bytes b (ztake n pp)) = n).
    { rewrite zlen_add_bytes; [exact Lb|]. rewrite zlen_ztake. lia. }
    set (f2 := fwrite_at f (woff + bs_wpos c) (add_bytes b (ztake n pp))) in *.
    assert (T : forall c2, bs_wpos c2 = bs_wpos c + n -> wrote woff c f c2 f2).
    { intros c2 E2. exists (add_bytes b (ztake n pp)). split; [reflexivity|]. lia. }
    match type of E with match ?r with Ok _ => _ | _ => _ end = _ => destruct r as [c2| | |] eqn:R; try discriminate end.
    assert (C2 : bs_wpos c2 = bs_wpos c + n /\ exok c2).
    { destruct (bs_diff c - n =? 0).
      - destruct (Z.gtb_spec (bs_extra c) 0).
        + injection R as <-. split; [reflexivity|]. split; [cbn [bs_wpos]; lia|]. cbn [bs_extra]. lia.
        + apply bs_next_wpos in R as [R1 R2]. cbn [bs_wpos] in R1. split; [exact R1|]. split; [lia|]. rewrite R2. discriminate.
      - injection R as <-. split; [reflexivity|]. split; [cbn [bs_wpos]; lia|discriminate]. }
    destruct C2 as [C2 C3]. destruct (zlen (zdrop n pp) >? 0).
    + apply IH in E as [E1 E2]; [|exact C3]. split; [|exact E2]. eapply wrote_trans; [exact W|exact P|apply T; exact C2|exact E1].
    + injection E as <- <-. split; [apply T; exact C2|exact C3].
  - cbv zeta in E. specialize (X eq_refl). remember (Z.min (zlen pp) (bs_extra c)) as n eqn:En.
    assert (Hn : 0 <= n) by (pose proof (zlen_nonneg pp); lia).
    set (f2 := fwrite_at f (woff + bs_wpos c) (ztake n pp)) in *.
    assert (T : forall c2, bs_wpos c2 = bs_wpos c + n -> wrote woff c f c2 f2).
    { intros c2 E2. exists (ztake n pp). split; [reflexivity|]. rewrite zlen_ztake. lia. }
    cbn [bs_ctrl bs_diff bs_extra bs_adj bs_opos bs_wpos] in E.
    destruct (bs_extra c - n =? 0).
    + destruct (bs_next _) as [c2| | |] eqn:R; try discriminate. apply bs_next_wpos in R as [R1 R2]. cbn [bs_wpos] in R1.
      assert (C3 : exok c2) by (split; [lia|rewrite R2; discriminate]).
      destruct (zlen (zdrop n pp) >? 0).
      * apply IH in E as [E1 E2]; [|exact C3]. split; [|exact E2]. eapply wrote_trans; [exact W|exact P|apply T; exact R1|exact E1].
      * injection E as <- <-. split; [apply T; exact R1|exact C3].
    + injection E as <- <-. split; [apply T; reflexivity|]. split; [cbn [bs_wpos]; lia|]. cbn [bs_extra]. lia.
  - discriminate.
Qed.
Lemma chunks_wrote o ooff woff blen : 0 <= woff -> forall l c f c1 f1,
  exok c -> bspatch_chunks o ooff woff blen c f l = (c1, f1, Ok tt) -> wrote woff c f c1 f1 /\ exok c1.
Proof.
  intros W. induction l as [|b l IH]; intros c f c1 f1 X E; cbn [bspatch_chunks] in E.
  - injection E as <- <-. split; [apply wrote_refl; reflexivity|exact X].
  - destruct (bspatch_write o ooff woff blen c f b) as [[c2 f2] r] eqn:B. destruct r as [[]| | |]; try discriminate.
    apply bs_loop_wrote in B as [B1 B2]; [|exact W|exact X]. apply IH in E as [E1 E2]; [|exact B2]. split; [|exact E2].
    eapply wrote_trans; [exact W|apply X|exact B1|exact E1].
Qed.
Lemma exok_init : exok bs_init.
Proof. split; [cbn; lia|discriminate]. Qed.

(* ---- trees write inside their region ---- *)
Lemma fwrite_form (f : bytes) off n : 0 <= off -> 0 < n -> exists A B : bytes, zlen A = off /\
  forall M : bytes, zlen M = n -> fwrite_at f off M = A ++ M ++ B.
Proof.
  intros Ho Hn. destruct (Z_le_gt_dec off (zlen f)) as [L|L].
  - exists (ztake off f), (zdrop (off + n) f). split; [rewrite zlen_ztake; lia|]. intros M EM. rewrite fwrite_at_in by lia. unfold splice. now rewrite EM.
  - exists (f ++ zeros (off - zlen f)), []. split; [rewrite zlen_app, zlen_zeros; lia|]. intros M EM. unfold fwrite_at.
    destruct (Z.eqb_spec (zlen M) 0); [lia|]. destruct (Z.leb_spec off (zlen f)); [lia|]. now rewrite app_nil_r, <- app_assoc.
Qed.
Definition inside (f0 : bytes) (off total : Z) (f : bytes) : Prop := exists M : bytes, zlen M = total /\ f = fwrite_at f0 off M.
Lemma inside_write f0 off total f pos d : 0 <= off -> 0 < total -> inside f0 off total f -> off <= pos -> pos + zlen d <= off + total ->
  inside f0 off total (fwrite_at f pos d).
Proof.
  intros Ho Ht (M & LM & ->) H1 H2. destruct (fwrite_form f0 off total Ho Ht) as (A & B & LA & F). pose proof (zlen_nonneg d).
  exists (splice (pos - off) d M). split; [rewrite zlen_splice; lia|].
  rewrite (F M LM), (F (splice (pos - off) d M)) by (rewrite zlen_splice; lia).
  rewrite fwrite_at_in; [|lia|rewrite !zlen_app; pose proof (zlen_nonneg B); lia].
  unfold splice. rewrite ztake_app_r by lia. rewrite LA. rewrite ztake_app_l by lia. rewrite zdrop_app_r by lia. rewrite zdrop_app_l by lia. rewrite LA.
  rewrite <- !app_assoc. do 4 f_equal. f_equal. lia.
Qed.
Section Tree.
Variable sha : hashfn.
Hypothesis Hsha : good_hash sha.
Lemma write_inside f0 off total n : 0 <= off -> 0 < total -> forall fuel c s data c' s',
  blk_ok c -> mk_offset c = off -> 0 <= mk_chunk_counter c -> 0 <= nth 0 (mk_level_offset c) 0 -> nth 0 (mk_level_offset c) 0 + n / 128 <= total ->
  128 * mk_chunk_counter c + (4096 - mk_block_counter c) + zlen data <= n -> inside f0 off total s ->
  write_loop sha file_io fuel c s data = Ok (c', s') ->
  0 <= mk_chunk_counter c' /\ 128 * mk_chunk_counter c' + (4096 - mk_block_counter c') <= 128 * mk_chunk_counter c + (4096 - mk_block_counter c) + zlen data /\ inside f0 off total s'.
Proof using Hsha.
  intros Ho Ht. induction fuel as [|k IH]; intros c s data c' s' Hb Hoff Hc Hl Hn HB HI.
  { cbn [write_loop]. destruct (Z.eqb_spec (zlen data) 0) as [E|]; [|discriminate]. intros X. injection X as <- <-. split; [exact Hc|]. split; [lia|exact HI]. }
  cbn [write_loop]. destruct (Z.eqb_spec (zlen data) 0) as [E|N].
  { intros X. injection X as <- <-. split; [exact Hc|]. split; [lia|exact HI]. }
  cbv zeta. pose proof (zlen_nonneg data) as ND. pose proof Hb as Hb0. unfold blk_ok in Hb0.
  remember (Z.min (mk_block_counter c) (zlen data)) as m eqn:Em.
  set (run := (if mk_block_counter c =? MBLOCK then mk_salt c else mk_running c) ++ ztake m data).
  destruct (Z.eqb_spec (mk_block_counter c - m) 0) as [Z0|Z0].
  - cbn [file_io io_wr]. rewrite Hoff. destruct (Z.ltb_spec (off + (mk_chunk_counter c + nth 0 (mk_level_offset c) 0)) 0); [discriminate|]. cbn [bind].
    assert (LS : zlen (sha HASH_SHA256 run) = 32) by (apply zlen_sha256; exact Hsha).
    assert (I1 : inside f0 off total (fwrite_at s (off + (mk_chunk_counter c + nth 0 (mk_level_offset c) 0)) (sha HASH_SHA256 run))).
    { apply inside_write; auto; [lia|]. rewrite LS. assert (mk_chunk_counter c + 32 <= n / 128) by lia. lia. }
    destruct (mk_input_length c =? MBLOCK).
    + intros X. injection X as <- <-. cbn [mk_block_done mk_chunk_counter mk_block_counter]. unfold MHASH, MBLOCK. split; [lia|]. split; [lia|exact I1].
    + intros X. apply IH in X; cbn [mk_block_done mk_offset mk_chunk_counter mk_level_offset mk_block_counter] in *; auto.
      * unfold MHASH, MBLOCK in X. rewrite zlen_zdrop in X. destruct X as (X1 & X2 & X3). split; [exact X1|]. split; [lia|exact X3].
      * apply blk_ok_done.
      * unfold MHASH. lia.
      * unfold MHASH, MBLOCK. rewrite zlen_zdrop. lia.
  - intros X. apply IH in X; cbn [mk_progress mk_offset mk_chunk_counter mk_level_offset mk_block_counter] in *; auto.
    + rewrite zlen_zdrop in X. destruct X as (X1 & X2 & X3). split; [exact X1|]. split; [lia|exact X3].
    + unfold blk_ok. cbn [mk_progress mk_block_counter]. lia.
    + rewrite zlen_zdrop. lia.
Qed.
Lemma generate_inside f0 off total n : 0 <= off -> 0 < total -> forall fuel c s pos left c' s',
  blk_ok c -> mk_offset c = off -> 0 <= mk_chunk_counter c -> 0 <= nth 0 (mk_level_offset c) 0 -> nth 0 (mk_level_offset c) 0 + n / 128 <= total ->
  0 <= left -> 128 * mk_chunk_counter c + (4096 - mk_block_counter c) + left <= n -> inside f0 off total s ->
  generate_loop sha fuel c s pos left = Ok (c', s') -> same_setup c c' /\ inside f0 off total s'.
Proof using Hsha.
  intros Ho Ht. induction fuel as [|k IH]; intros c s pos left c' s' Hb Hoff Hc Hl Hn HL HB HI.
  { cbn [generate_loop]. destruct (left =? 0); [|discriminate]. intros X. injection X as <- <-. split; [apply same_setup_refl|exact HI]. }
  cbn [generate_loop]. destruct (Z.eqb_spec left 0) as [E|N].
  { intros X. injection X as <- <-. split; [apply same_setup_refl|exact HI]. }
  set (m := Z.min left CHUNK). assert (C : 0 < m <= left) by (unfold m, CHUNK; lia). clearbody m.
  destruct (file_rd s pos m) as [b| | |] eqn:R; try discriminate.
  assert (Lb : zlen b = m).
  { unfold file_rd in R. destruct (pos <? 0); [discriminate|]. destruct (Z.eqb_spec (zlen (fread_at s pos m)) m) as [Q|]; [|discriminate]. injection R as <-. exact Q. }
  unfold merkle_write_chunk. destruct (write_loop sha file_io (length b) c s b) as [[c1 s1]| | |] eqn:E; cbn [bind fst snd]; try discriminate.
  pose proof (write_loop_inv sha file_io _ _ _ _ _ _ Hb E) as (B1 & B2 & _).
  apply (write_inside f0 off total n Ho Ht) in E as (E1 & E2 & E3); auto; [|lia].
  pose proof B2 as (S1 & S2 & S3 & S4 & S5 & S6 & S7).
  intros X. apply IH in X as [X1 X2]; rewrite ?S2, ?S7; auto; try lia.
  split; [|exact X2]. destruct X1 as (Y1 & Y2 & Y3 & Y4 & Y5 & Y6 & Y7). unfold same_setup. repeat split; congruence.
Qed.
Lemma finish_level_inside f0 off total salt : 0 <= off -> 0 < total -> forall n s src dst s',
  off <= dst -> dst + 32 * Z.of_nat n <= off + total -> inside f0 off total s ->
  finish_level sha file_io n s salt src dst = Ok s' -> inside f0 off total s'.
Proof using Hsha.
  intros Ho Ht. induction n as [|n IH]; intros s src dst s' H1 H2 HI E; cbn [finish_level] in E; [injection E as <-; exact HI|].
  destruct (read_pieces file_io 128 s src salt) as [m| | |]; cbn [bind] in E; try discriminate.
  cbn [file_io io_wr] in E. destruct (Z.ltb_spec dst 0); [lia|]. cbn [bind] in E.
  apply IH in E; [exact E|unfold MHASH; lia|unfold MHASH; lia|].
  apply inside_write; auto. rewrite (zlen_sha256 sha m Hsha : zlen (sha HASH_SHA256 m) = 32). lia.
Qed.
Lemma finish_levels_inside f0 off total c : 0 <= off -> 0 < total -> mk_offset c = off -> forall n i s s', (1 <= i)%nat ->
  (forall j, (i <= j < i + n)%nat -> 0 <= nth j (mk_level_offset c) 0 /\ 0 <= nth (j - 1) (mk_level_length c) 0 /\ nth j (mk_level_offset c) 0 + 32 * (nth (j - 1) (mk_level_length c) 0 / 4096) <= total) ->
  inside f0 off total s -> finish_levels sha file_io n i c s = Ok s' -> inside f0 off total s'.
Proof using Hsha.
  intros Ho Ht Hoff. induction n as [|n IH]; intros i s s' Hi HJ HI E; cbn [finish_levels] in E; [injection E as <-; exact HI|].
  match type of E with bind ?x _ = _ => destruct x as [s1| | |] eqn:F; cbn [bind] in E; try discriminate end.
  apply (IH (S i) s1); [lia|intros j Hj; apply HJ; lia| |exact E].
  destruct (HJ i ltac:(lia)) as (J1 & J2 & J3). rewrite Hoff in F. apply (finish_level_inside f0 off total) in F; auto; [lia|].
  unfold MBLOCK. rewrite Z2Nat.id by lia. lia.
Qed.
Lemma tb_nth k l : tree_blocks k l -> forall i, (i < length l)%nat -> nth i l 0 = ceil128 (match i with O => k | S j => nth j l 0 end) /\ 0 < nth i l 0.
Proof.
  induction 1 as [c Hc|c l Hc T IH]; intros i Hi.
  - cbn [length] in Hi. assert (i = 0%nat) as -> by lia. cbn [nth]. unfold ceil128. lia.
  - destruct i as [|i]; cbn [nth].
    + split; [reflexivity|]. unfold ceil128. lia.
    + cbn [length] in Hi. destruct (IH i ltac:(lia)) as [A B]. split; [|exact B]. rewrite A. destruct i; reflexivity.
Qed.
Lemma zsum_skipn l : (forall i, (i < length l)%nat -> 0 < nth i l 0) -> forall i, (i < length l)%nat -> 0 <= zsum (skipn (S i) l) /\ zsum (skipn (S i) l) + nth i l 0 <= zsum l.
Proof.
  induction l as [|x l IH]; intros P i Hi; [cbn in Hi; lia|]. cbn [length] in Hi.
  assert (P' : forall i, (i < length l)%nat -> 0 < nth i l 0) by (intros j Hj; apply (P (S j)); cbn [length]; lia).
  assert (P0 : 0 < x) by (apply (P 0%nat); cbn [length]; lia).
  assert (NN : 0 <= zsum l).
  { destruct l as [|y l]; [cbn; lia|]. destruct (IH P' 0%nat ltac:(cbn [length]; lia)) as [A B]. pose proof (P' 0%nat ltac:(cbn [length]; lia)). lia. }
  change (zsum (x :: l)) with (x + zsum l). destruct i as [|i]; cbn [nth].
  - change (skipn 1 (x :: l)) with l. lia.
  - change (skipn (S (S i)) (x :: l)) with (skipn (S i) l). destruct (IH P' i ltac:(lia)) as [A B]. lia.
Qed.
Lemma init_ok_inv f n salt off c f1 : 0 <= n < 2^64 -> merkle_init file_io f n salt off true = (c, Ok f1) ->
  exists l, tree_blocks (n / 4096) l /\ init_ctx c n salt off l /\ 0 < n /\ n mod 4096 = 0 /\
    zero_fill (Z.to_nat (4096 * zsum l / 32 + 1)) file_io f off (4096 * zsum l) = Ok f1.
Proof.
  intros Hn E.
  destruct (Z.eqb_spec (n mod 4096) 0) as [Ha|Ha].
  2: { unfold merkle_init, MBLOCK in E. destruct (Z.eqb_spec (n mod 4096) 0); [contradiction|]. cbn [negb] in E. discriminate. }
  destruct (Z.ltb_spec 32 (zlen salt)) as [Hs|Hs].
  { unfold merkle_init, MBLOCK in E. rewrite Ha in E. cbn [Z.eqb negb] in E. destruct (Z.ltb_spec 32 (zlen salt)); [discriminate|lia]. }
  destruct (Z.eq_dec n 0) as [->|N].
  { unfold merkle_init, MBLOCK in E. change (0 mod 4096 =? 0) with true in E. cbn [negb] in E. destruct (Z.ltb_spec 32 (zlen salt)); [lia|].
    change (level_loop 5 0 0 (repeat 0 4) 0) with (repeat 0 4, 0, @Err Z E_NO_SPACE_LEFT) in E. discriminate. }
  assert (K : 0 < n / 4096) by (pose proof (aligned_mult n ltac:(lia) Ha); lia).
  destruct (tree_blocks_exists (n / 4096) K) as [l Hl].
  destruct (Z_le_gt_dec (zlen l) 3) as [L|L].
  - destruct (init_accepts file_io f n salt off true l ltac:(lia) Ha Hs Hl L) as (c1 & E1 & I). rewrite E1 in E.
    apply (f_equal snd) in E as E2. apply (f_equal fst) in E as E3. cbv beta iota delta [snd fst] in E2, E3. subst c1. exists l. split; [exact Hl|]. split; [exact I|]. split; [lia|]. split; [exact Ha|exact E2].
  - destruct (init_rejects file_io f n salt off true l ltac:(lia) Ha Hs Hl ltac:(lia)) as (c1 & E1 & _). rewrite E1 in E. discriminate.
Qed.
Lemma merkle_generate_wrote h p f f1 n : Forall psz (h_parts h) -> 0 <= data_pos h p ->
  merkle_generate sha h p f = Ok (f1, n) -> inside f (data_pos h p) n f1.
Proof using Hsha.
  intros F Ho. unfold merkle_generate. destruct (_ =? 0); [discriminate|].
  set (fs_id := hash_tree_id_to_part_id h (p_id p)). clearbody fs_id.
  destruct (get_meta h ID_MERKLE_SALT fs_id) as [m| | |]; cbn [bind]; try discriminate.
  destruct (get_part h fs_id) as [i| | |]; cbn [bind]; try discriminate.
  destruct (meta_read h m 0 32) as [salt| | |]; cbn [bind]; try discriminate.
  destruct (nth_error (h_parts h) i) as [fs|] eqn:Ei; [|discriminate].
  assert (P : psz fs) by (eapply Forall_forall; [exact F|eapply nth_error_In; exact Ei]). apply psz_size in P.
  destruct (merkle_init file_io f (part_size fs) salt (data_pos h p) true) as [c r] eqn:E.
  destruct r as [f2| | |]; cbn [bind]; try discriminate.
  destruct (init_ok_inv _ _ _ _ _ _ P E) as (l & Tb & IC & Pos & Al & ZF).
  set (N := part_size fs) in *. clearbody N. set (off := data_pos h p) in *. clearbody off.
  pose proof (tree_blocks_sum _ _ Tb) as SB. pose proof (tb_nth _ _ Tb) as TN. destruct (tree_blocks_pos _ _ Tb) as [_ LL].
  pose proof (zsum_skipn l (fun i Hi => proj2 (TN i Hi))) as SK.
  assert (TT : 0 < 4096 * zsum l) by lia.
  assert (I0 : inside f off (4096 * zsum l) f2).
  { pose proof (zero_fill_file (Z.to_nat (128 * zsum l)) (Z.to_nat (4096 * zsum l / 32 + 1)) f off ltac:(lia) Ho) as Z1.
    rewrite Z2Nat.id in Z1 by lia. replace (32 * (128 * zsum l)) with (4096 * zsum l) in Z1 by lia.
    rewrite Z1 in ZF. 2:{ pose proof (aligned_mult N ltac:(lia) Al) as AM. revert AM P SB. clear. generalize (zsum l) (N / 4096). intros; lia. }
    injection ZF as <-. exists (zeros (4096 * zsum l)). split; [rewrite zlen_zeros; lia|reflexivity]. }
  destruct (generate_loop sha _ c f2 _ N) as [[c3 f3]| | |] eqn:G; cbn [bind fst snd]; try discriminate.
  apply (generate_inside f off (4096 * zsum l) N Ho TT) in G as [G1 G2].
  2: { unfold blk_ok. rewrite (ic_block _ _ _ _ _ IC). unfold MBLOCK. lia. }
  2: { apply IC. }
  2: { rewrite (ic_chunk _ _ _ _ _ IC). lia. }
  2: { rewrite (ic_offs _ _ _ _ _ IC) by lia. destruct (SK 0%nat ltac:(lia)). lia. }
  2: { rewrite (ic_offs _ _ _ _ _ IC) by lia. destruct (SK 0%nat ltac:(lia)) as [S1 S2]. destruct (TN 0%nat ltac:(lia)) as [T1 _].
       cbn [nth] in T1. rewrite T1 in S2. unfold ceil128 in S2. lia. }
  2: { lia. }
  2: { rewrite (ic_chunk _ _ _ _ _ IC), (ic_block _ _ _ _ _ IC). lia. }
  2: { exact I0. }
  destruct G1 as (S1 & S2 & S3 & S4 & S5 & S6 & S7).
  destruct (merkle_finish sha file_io c3 f3) as [[f4 root]| | |] eqn:MF; cbn [bind fst]; try discriminate.
  intros X. injection X as <- <-. unfold merkle_get_size. rewrite S5, (ic_tree _ _ _ _ _ IC).
  unfold merkle_finish in MF. destruct (mk_finished c3); [injection MF as <- _; exact G2|].
  match type of MF with bind ?x _ = _ => destruct x as [f5| | |] eqn:FL; cbn [bind] in MF; try discriminate end.
  apply (finish_levels_inside f off (4096 * zsum l) c3) in FL; auto.
  - destruct (_ =? 0); [discriminate|]. cbv zeta in MF. match type of MF with bind ?x _ = _ => destruct x as [mm| | |]; cbn [bind] in MF; try discriminate end.
    injection MF as <- _. exact FL.
  - rewrite S7. apply IC.
  - intros j Hj. rewrite S1, S2. rewrite S3, (ic_levels _ _ _ _ _ IC) in Hj. unfold zlen in Hj.
    assert (J : (j < length l)%nat) by lia. assert (J1 : (j - 1 < length l)%nat) by lia.
    rewrite (ic_offs _ _ _ _ _ IC) by exact J. rewrite (ic_lens _ _ _ _ _ IC) by exact J1.
    destruct (SK j J) as [K1 K2]. destruct (TN j J) as [T1 T2]. destruct (TN (j - 1)%nat J1) as [_ T3].
    destruct j as [|j]; [lia|]. replace (S j - 1)%nat with j in * by lia. rewrite T1 in K2. unfold ceil128 in K2.
    split; [lia|]. split; [lia|]. lia.
Qed.
End Tree.

(* ---- one part ---- *)
Section B.
Variable bld : build.
Hypothesis HL : b_lzma bld = true -> lz_progresses (lz_dec (b_lib bld)).
Lemma chunks_pos h p qf inp : forall fuel pos left d f d1 f1 pos1, decode_chunks bld fuel h p qf inp pos left d f = (d1, f1, pos1, Ok tt) -> pos1 = pos + left.
Proof.
  induction fuel as [|k IH]; intros pos left d f d1 f1 pos1; cbn [decode_chunks].
  - destruct (Z.eqb_spec left 0); [|discriminate]. intros E. injection E as _ _ <-. lia.
  - destruct (Z.eqb_spec left 0); [intros E; injection E as _ _ <-; lia|].
    destruct (_ =? _); [|discriminate]. destruct (decode_chunk bld h p qf d f _) as [[d2 f2] [[]|x| |]]; try discriminate.
    intros E. apply IH in E. lia.
Qed.
Lemma chunks_merkle h p qf inp fuel pos left f d1 f1 pos1 : decode_chunks bld fuel h p qf inp pos left DMerkle f = (d1, f1, pos1, Ok tt) -> d1 = DMerkle /\ f1 = f.
Proof.
  destruct fuel as [|k]; cbn [decode_chunks].
  - destruct (_ =? 0); [|discriminate]. intros E. injection E as <- <- _. auto.
  - destruct (_ =? 0); [intros E; injection E as <- <- _; auto|]. destruct (_ =? _); [|discriminate]. cbn [decode_chunk]. discriminate.
Qed.
Lemma plain_chunks_wrote o ooff woff blen l f c1 f1 : 0 <= woff -> bspatch_chunks o ooff woff blen bs_init f l = (c1, f1, Ok tt) ->
  exists x : bytes, f1 = fwrite_at f woff x /\ zlen x = bs_wpos c1.
Proof.
  intros W E. apply chunks_wrote in E as [(x & A & B) _]; [|exact W|exact exok_init]. exists x. cbn [bs_init bs_wpos] in A, B. rewrite Z.add_0_r in A. rewrite Z.add_0_l in B. auto.
Qed.
Lemma final_wpos c n : bspatch_final c = Ok n -> bs_wpos c = n.
Proof. unfold bspatch_final. destruct (bs_state c); try discriminate; intros E; injection E as <-; reflexivity. Qed.
(* the contents a decoder produces, and their length *)
Lemma started_wrote sha h p origin inp pos f d d1 f1 pos1 (data : bytes) :
  good_hash sha -> wf_part p -> Forall psz (h_parts h) -> 0 <= data_pos h p < 2^62 ->
  0 <= pos -> part_size p = zlen data -> slice pos (zlen data) inp = data -> pos + zlen data <= zlen inp -> zlen inp < 2^62 ->
  decode_start bld h p origin = Ok d ->
  decode_chunks bld (Z.to_nat (part_size p / CHUNK + 1)) h p (orig_file origin) inp pos (part_size p) d f = (d1, f1, pos1, Ok tt) ->
  forall n f2, (match d1 with
           | DPlain _ _ c => (f1, bspatch_final c)
           | DHs _ _ _ c => (f1, bspatch_final (hp_bs c))
           | DLz ooff woff c =>
               if woff <? 0 then (f1, Err E_SEEK_ERROR)
               else match lzp_final _ (orig_file origin) ooff woff PATCH_BUF c f1 with (_, f1, r) => (f1, r) end
           | DMerkle =>
               match merkle_generate sha h p f1 with
               | Ok (f1, n) => (f1, Ok n)
               | Err e => (f1, Err e)
               | UB => (f1, UB)
               | Stuck => (f1, Stuck)
               end
           | DCopy _ => (f1, Ok (s64 (part_size p)))
           end) = (f2, Ok n) ->
  exists x : bytes, f2 = fwrite_at f (data_pos h p) x /\ zlen x = n /\ (Z.testbit (p_flags p) 1 = false -> x = data).
Proof using HL.
  intros Hs W F HD Hp PS SL Bd Bi ED EC n f2 EF. pose proof (zlen_nonneg data) as Nd. pose proof (zlen_nonneg inp) as Ni.
  assert (Cl : p_flags p = p_flags p) by reflexivity. clear Cl.
  assert (FU : (part_size p + 4095) / 4096 <= Z.of_nat (Z.to_nat (part_size p / CHUNK + 1))) by (rewrite PS; unfold CHUNK; rewrite Z2Nat.id; lia).
  set (fuel := Z.to_nat (part_size p / CHUNK + 1)) in *. clearbody fuel. set (qf := orig_file origin) in *. clearbody qf.
  unfold decode_start in ED.
  assert (FL : Z.testbit (p_flags p) 1 = false -> decoder_id h p = Ok 0).
  { intros T. unfold decoder_id. rewrite has_flag_transport, T. reflexivity. }
  destruct (decoder_id h p) as [id| | |]; cbn [bind] in ED; try discriminate.
  assert (FL' : id <> 0 -> Z.testbit (p_flags p) 1 = true).
  { intros N. destruct (Z.testbit (p_flags p) 1); [reflexivity|]. specialize (FL eq_refl). congruence. }
  clear FL. destruct ((id =? ID_BSPATCH) || (id =? ID_BSPATCH_NO_COMP) || (id =? ID_BSPATCH_LZMA)) eqn:EI.
  - assert (T : Z.testbit (p_flags p) 1 = true).
    { apply FL'. intros ->. cbn in EI. discriminate. }
    assert (Fin : forall x : bytes, f2 = fwrite_at f (data_pos h p) x -> zlen x = n ->
      exists x : bytes, f2 = fwrite_at f (data_pos h p) x /\ zlen x = n /\ (Z.testbit (p_flags p) 1 = false -> x = data)).
    { intros x A B. exists x. split; [exact A|]. split; [exact B|]. congruence. }
    destruct origin as [q|]; [|discriminate].
    set (ooff := data_pos (pk_header q) p) in *. set (woff := data_pos h p) in *. clearbody ooff woff.
    destruct (id =? ID_BSPATCH); [|destruct (id =? ID_BSPATCH_NO_COMP); [|destruct (b_lzma bld) eqn:EL; [|discriminate]]]; injection ED as <-.
    + destruct (feed_gen bld hspctx (hsp_write qf ooff woff PATCH_BUF (part_size p)) (DHs ooff woff (part_size p)) h p qf inp
        ltac:(intros s f0 b; cbn [decode_chunk]; destruct (Z.ltb_spec woff 0); [lia|]; reflexivity) fuel pos (part_size p) hsp_init f ltac:(lia) FU)
        as (l & s1 & f3 & pos3 & r & E3 & NE & LL & r' & A & R).
      rewrite EC in E3. injection E3 as -> <- <- <-. destruct R as [<- | [_ X]]; [|discriminate].
      rewrite feed_hs in A. destruct (hs_patch_equiv qf ooff woff PATCH_BUF (part_size p) ltac:(unfold PATCH_BUF; lia) l f
        ltac:(apply expected_nonempty; [exact NE|lia])) as (outs & _ & Q). unfold bytes in *. rewrite A in Q.
      apply plain_chunks_wrote in Q as (x & X1 & X2); [|lia]. injection EF as <- EF. apply final_wpos in EF. apply (Fin x); [exact X1|lia].
    + destruct (feed_gen bld bsctx (bspatch_write qf ooff woff PATCH_BUF) (DPlain ooff woff) h p qf inp
        ltac:(intros s f0 b; cbn [decode_chunk]; destruct (Z.ltb_spec woff 0); [lia|]; reflexivity) fuel pos (part_size p) bs_init f ltac:(lia) FU)
        as (l & s1 & f3 & pos3 & r & E3 & NE & LL & r' & A & R).
      rewrite EC in E3. injection E3 as -> <- <- <-. destruct R as [<- | [_ X]]; [|discriminate].
      rewrite feed_plain in A. apply plain_chunks_wrote in A as (x & X1 & X2); [|lia]. injection EF as <- EF. apply final_wpos in EF. apply (Fin x); [exact X1|lia].
    + destruct (feed_gen bld _ (lzp_write (lz_dec (b_lib bld)) qf ooff woff PATCH_BUF) (DLz ooff woff) h p qf inp
        ltac:(intros s f0 b; cbn [decode_chunk]; destruct (Z.ltb_spec woff 0); [lia|]; reflexivity) fuel pos (part_size p) (lzp_init _) f ltac:(lia) FU)
        as (l & s1 & f3 & pos3 & r & E3 & NE & LL & r' & A & R).
      rewrite EC in E3. injection E3 as -> <- <- <-. destruct R as [<- | [_ X]]; [|discriminate].
      rewrite feed_lz in A. destruct (Z.ltb_spec woff 0) as [|_]; [lia|].
      destruct (lz_hostile (lz_dec (b_lib bld)) l (HL eq_refl)) as (outs & e & He & Q). specialize (Q qf ooff woff PATCH_BUF f).
      unfold lzp_all in Q. unfold bytes in *. rewrite A in Q.
      destruct (lzp_final (lz_dec (b_lib bld)) qf ooff woff PATCH_BUF s1 f1) as [[h4 f4] r4]. injection EF as -> ->.
      destruct (bspatch_chunks qf ooff woff PATCH_BUF bs_init f outs) as [[c5 f5] [[]|e5| |]] eqn:E5; try discriminate.
      destruct He as [-> | ->]; [|discriminate]. injection Q as -> ->.
      apply plain_chunks_wrote in E5 as (x & X1 & X2); [|lia]. apply (Fin x); [exact X1|exact X2].
  - destruct (Z.eqb_spec id ID_MERKLE_GENERATE) as [Em|Em]; [|destruct (Z.eqb_spec id 0) as [Ez|]; [|discriminate]]; injection ED as <-.
    + apply chunks_merkle in EC as [-> ->]. destruct (merkle_generate sha h p f) as [[f3 n3]| | |] eqn:MG; try discriminate. injection EF as -> ->.
      apply merkle_generate_wrote in MG as (M & LM & EM); auto; [|lia]. exists M. split; [exact EM|]. split; [exact LM|].
      intros X. rewrite FL' in X; [discriminate|]. rewrite Em. discriminate.
    + rewrite PS in EC, FU. rewrite feed_copy in EC; auto; try lia. injection EC as <- <- _. injection EF as <- <-.
      exists data. rewrite SL, Z.add_0_r, PS. split; [reflexivity|]. split; [symmetry; apply s64_id; lia|auto].
Qed.
Lemma part_sane sha origin inp h i p pos f h1 f1 pos1 (data : bytes) :
  good_hash sha -> wf_part p -> Forall psz (h_parts h) -> 0 <= data_pos h p < 2^62 -> p_size p + p_pad_bytes p < 2^62 ->
  0 <= pos -> part_size p = zlen data -> slice pos (zlen data) inp = data -> pos + zlen data <= zlen inp -> zlen inp < 2^62 ->
  decode_part bld sha origin inp h i p pos f = (h1, f1, pos1, Ok tt) ->
  h1 = set_part h i (decoded_part p) /\ pos1 = pos + zlen data /\
  exists x : bytes, zlen x = p_size p + p_pad_bytes p /\ f1 = put_header (fwrite_at (put_header f h) (data_pos h p) x) h1 /\
    (Z.testbit (p_flags p) 1 = false -> x = data).
Proof using HL.
  intros Hs W F HD HZ Hp PS SL Bd Bi E. destruct (decode_part_ok bld sha _ _ _ _ _ _ _ _ _ _ W E) as [E1 _]. split; [exact E1|].
  unfold decode_part in E. destruct (match origin with Some _ => _ | None => _ end) as [[]|e| |]; try discriminate.
  destruct (decode_start bld h p origin) as [d|e| |] eqn:ED; try discriminate. fold (orig_file origin) in E.
  destruct (decode_chunks bld (Z.to_nat (part_size p / CHUNK + 1)) h p (orig_file origin) inp pos (part_size p) d (put_header f h)) as [[[d1 f2] pos2] [[]|e| |]] eqn:EC; try discriminate.
  pose proof (chunks_pos _ _ _ _ _ _ _ _ _ _ _ _ EC) as P2. rewrite PS in P2.
  pose proof (started_wrote sha h p origin inp pos (put_header f h) d d1 f2 pos2 data Hs W F HD Hp PS SL Bd Bi ED EC) as SW.
  destruct (decode_finish bld sha h i p (orig_file origin) d1 f2) as [[h2 f4] r] eqn:EF. injection E as -> -> -> ->. split; [exact P2|].
  unfold decode_finish in EF. cbv zeta in EF.
  destruct (match d1 with DCopy _ => _ | _ => _ end) as [f3 [n|e| |]] eqn:EM in EF; try discriminate.
  destruct (SW n f3 EM) as (x & X1 & X2 & X3). clear SW EM.
  destruct (Z.ltb_spec n 0); [discriminate|]. destruct (Z.eqb_spec n (s64 (p_size p + p_pad_bytes p))) as [En|]; cbn [negb] in EF; [|discriminate].
  injection EF as EH <-. rewrite EH. assert (0 <= p_size p /\ 0 <= p_pad_bytes p) as [? ?] by (destruct W as (? & ? & ? & ? & ? & ? & ?); lia).
  rewrite s64_id in En by lia.
  exists x. split; [lia|]. split; [rewrite <- X1; reflexivity|exact X3].
Qed.

(* ---- the whole package ---- *)
Lemma decoded_size p (x : bytes) : wf_part p -> zlen x = p_size p + p_pad_bytes p -> zlen x < 2^62 -> part_size (decoded_part p) = zlen x.
Proof.
  intros (A & B & C & D & E & F & G) L Lx. unfold part_size. rewrite has_flag_transport. cbn [decoded_part p_flags p_size p_pad_bytes].
  rewrite Z.clearbit_eq. unfold u64. rewrite Z.mod_small; lia.
Qed.
Lemma lay_psz h es : wf_header h -> lay h es -> Forall psz (h_parts h).
Proof. intros W _. eapply Forall_impl; [|exact (proj2 (wf_parts _ W))]. intros a Ha. unfold psz. destruct Ha as (? & ? & ? & ? & ?). tauto. Qed.
Definition begun (g f : bytes) (h : header) (ds : list (parth * bytes)) : Prop :=
  (ds = [] /\ f = g) \/ f = fwrite_at g 0 (enc_header h ++ concat (map snd ds)).
Lemma begun_put g f h ds : begun g f h ds -> put_header f h = fwrite_at g 0 (enc_header h ++ concat (map snd ds)).
Proof.
  intros [[-> ->] | ->]; unfold put_header; [cbn [map concat]; now rewrite app_nil_r|]. apply fwrite_rehead. reflexivity.
Qed.
Lemma announced_nonneg cs : Forall (fun e : parth * bytes => wf_part (fst e)) cs -> 0 <= announced cs.
Proof.
  induction 1 as [|e cs W F IH]; [cbn; lia|]. unfold announced in *. cbn [map zsum fold_right]. fold (zsum (map (fun e => p_size (fst e) + p_pad_bytes (fst e)) cs)).
  destruct W as (? & ? & ? & ? & ? & ? & ?). lia.
Qed.
Lemma decode_loop_sane sha origin inp g : good_hash sha -> zlen inp < 2^62 -> forall (cs ds : list (parth * bytes)) n h pos f h1 f1,
  wf_header h -> lay h (ds ++ cs) -> (length ds + n = 32)%nat -> 0 <= pos -> pos + zlen (concat (map snd cs)) <= zlen inp ->
  slice pos (zlen (concat (map snd cs))) inp = concat (map snd cs) ->
  4096 + zlen (concat (map snd ds)) + announced cs < 2^62 -> begun g f h ds ->
  decode_loop bld sha origin inp n h (length ds) pos f = (h1, f1, Ok tt) ->
  exists es', Forall2 decoded_as cs es' /\ wf_header h1 /\ lay h1 (ds ++ es') /\ begun g f1 h1 (ds ++ es').
Proof using HL.
  intros Hs Bi. induction cs as [|[c data] cs IH]; intros ds n h pos f h1 f1 W L N Hp Bp SL SZ BG E.
  { exists []. assert (X : (h1, f1) = (h, f)).
    { destruct n as [|n]; cbn [decode_loop] in E; [congruence|]. rewrite app_nil_r in L. pose proof (la_table _ _ L) as T.
      replace (32 - length ds)%nat with (S (32 - S (length ds))) in T by lia. cbn [repeat] in T.
      rewrite T, nth_error_app2 in E by now rewrite map_length. rewrite map_length, Nat.sub_diag in E. cbn [nth_error zero_part p_id Z.eqb] in E. congruence. }
    injection X as -> ->. split; [constructor|]. rewrite app_nil_r in *. auto. }
  destruct n as [|n]. { pose proof (la_count _ _ L) as C. rewrite app_length in C. cbn [length] in C. lia. }
  cbn [decode_loop] in E. destruct (lay_get _ _ _ _ _ L) as [_ NP]. rewrite NP in E.
  pose proof (la_nonzero _ _ L) as NZ. apply Forall_app in NZ as [_ NZ]. inversion NZ as [|? ? NZ1 NZ2]; subst. cbn [fst] in NZ1.
  destruct (Z.eqb_spec (p_id c) 0); [contradiction|].
  assert (Wc : forall e, In e ((c, data) :: cs) -> wf_part (fst e)).
  { intros e He. eapply Forall_forall; [exact (proj2 (wf_parts _ W))|]. rewrite (la_table _ _ L). apply in_or_app. left. apply in_map. apply in_or_app. now right. }
  pose proof (Wc _ (or_introl eq_refl)) as W1. cbn [fst] in W1.
  assert (AN : 0 <= announced cs) by (apply announced_nonneg; apply Forall_forall; intros e He; apply Wc; now right).
  unfold announced in SZ. cbn [map zsum fold_right fst] in SZ. fold (zsum (map (fun e : parth * bytes => p_size (fst e) + p_pad_bytes (fst e)) cs)) in SZ. fold (announced cs) in SZ.
  cbn [map concat snd] in Bp, SL. rewrite zlen_app in Bp, SL. pose proof (zlen_nonneg data) as Nd. pose proof (zlen_nonneg (concat (map snd cs))) as Nc. pose proof (zlen_nonneg (concat (map snd ds))) as Nds.
  rewrite slice_split in SL by lia. assert (LS : zlen (slice pos (zlen data) inp) = zlen data) by (apply zlen_slice_in; lia).
  assert (S1 : slice pos (zlen data) inp = data).
  { apply (f_equal (ztake (zlen data))) in SL. rewrite !ztake_app_l in SL by lia. rewrite !ztake_all in SL by lia. exact SL. }
  assert (S2 : slice (pos + zlen data) (zlen (concat (map snd cs))) inp = concat (map snd cs)).
  { apply (f_equal (zdrop (zlen data))) in SL. rewrite !zdrop_app_r in SL by lia. rewrite LS, Z.sub_diag in SL. exact SL. }
  assert (0 <= p_size c /\ 0 <= p_pad_bytes c) as [? ?] by (destruct W1 as (? & ? & ? & ? & ? & ? & ?); lia).
  assert (DP : data_pos h c = 4096 + zlen (concat (map snd ds))) by (eapply lay_data_pos; eauto; lia).
  assert (PS : part_size c = zlen data) by (exact (lay_bound _ _ _ _ L)).
  destruct (decode_part bld sha origin inp h (length ds) c pos f) as [[[h2 f2] pos2] [[]|e| |]] eqn:EP; try discriminate.
  apply (part_sane sha origin inp h (length ds) c pos f h2 f2 pos2 data) in EP as (EH & -> & x & LX & EF & XD); auto; try lia.
  2: { eapply lay_psz; eauto. }
  assert (DS : part_size (decoded_part c) = zlen x) by (apply decoded_size; auto; lia).
  destruct (lay_upd h ds c data cs (decoded_part c) x L eq_refl DS) as [L2 _]. rewrite <- EH in L2.
  assert (W2 : wf_header h2) by (rewrite EH; apply wf_set_part; [exact W|now apply wf_decoded]).
  assert (AP : forall (t : list (parth * bytes)), ds ++ (decoded_part c, x) :: t = (ds ++ [(decoded_part c, x)]) ++ t) by (intros; now rewrite <- app_assoc).
  rewrite AP in L2.
  assert (LD : zlen (concat (map snd (ds ++ [(decoded_part c, x)]))) = zlen (concat (map snd ds)) + zlen x).
  { rewrite map_app, concat_app, zlen_app. cbn [map concat snd]. now rewrite app_nil_r. }
  destruct (IH (ds ++ [(decoded_part c, x)]) n h2 (pos + zlen data) f2 h1 f1) as (es' & F2 & W3 & L3 & B3); auto; try lia.
  - rewrite app_length. cbn [length]. lia.
  - right. rewrite EF, (begun_put _ _ _ _ BG), DP. pose proof (zlen_enc_header _ W) as LH. pose proof (zlen_enc_header _ W2) as LH2.
    replace (4096 + zlen (concat (map snd ds))) with (zlen (enc_header h ++ concat (map snd ds))) by (rewrite zlen_app, LH; reflexivity).
    rewrite fwrite_more, <- app_assoc. unfold put_header. rewrite fwrite_rehead by congruence. rewrite map_app, concat_app. cbn [map concat snd]. now rewrite app_nil_r.
  - replace (length (ds ++ [(decoded_part c, x)])) with (S (length ds)) by (rewrite app_length; cbn [length]; lia). exact E.
  - exists ((decoded_part c, x) :: es'). split; [constructor; [split; [reflexivity|]; split; assumption|exact F2]|]. rewrite AP. auto.
Qed.
Lemma decode_sane sha p (es : list (parth * bytes)) origin g h1 f1 :
  good_hash sha -> holds p es -> es <> [] -> zlen (pk_file p) < 2^62 -> 4096 + announced es < 2^62 ->
  transport_decode bld sha p g origin = (h1, f1, Ok tt) ->
  exists es', Forall2 decoded_as es es' /\ f1 = fwrite_at g 0 (enc_header h1 ++ concat (map snd es')) /\ holds (mkPkg h1 (enc_header h1 ++ concat (map snd es'))) es'.
Proof using HL.
  intros Hs H Ne Sz An. unfold transport_decode. destruct (match origin with Some _ => _ | None => _ end) as [u|x| |]; try discriminate.
  intros E. pose proof (ho_wf _ _ H) as W. pose proof (zlen_enc_header _ W) as LH. pose proof (ho_file _ _ H) as Fp.
  assert (ZF : zlen (pk_file p) = 4096 + zlen (concat (map snd es))) by (rewrite Fp, zlen_app, LH; reflexivity).
  apply (decode_loop_sane sha origin (pk_file p) g Hs Sz es [] MAX_PARTS) in E; auto.
  - destruct E as (es' & F2 & W3 & L3 & B3). cbn [app] in *. exists es'. split; [exact F2|].
    assert (Ne' : es' <> []) by (intros ->; inversion F2; subst; contradiction).
    split. { destruct B3 as [[X _]|X]; [contradiction|exact X]. }
    assert (SUM : zlen (concat (map snd es')) = announced es).
    { clear - F2. induction F2 as [|e d es es' (A & B & C) F IH]; [reflexivity|]. cbn [map concat]. rewrite zlen_app, IH, B. reflexivity. }
    destruct L3 as [T1 T2 T3 T4 T5]. constructor; cbn [pk_header pk_file]; auto.
    + clear - F2 W H An. pose proof (fun e He => entry_wf _ _ e H He) as EW. clear H.
      revert An EW. induction F2 as [|e d es es' (A & B & C) F IH]; intros An EW; constructor.
      * rewrite B, A. unfold stored_size. cbn [decoded_part p_flags p_size p_pad_bytes]. rewrite Z.clearbit_eq. reflexivity.
      * apply IH; [|intros e' He'; apply EW; now right]. destruct (EW e (or_introl eq_refl)) as ((? & ? & ? & ? & ? & ? & ?) & _).
        unfold announced in *. cbn [map zsum fold_right] in An. fold (zsum (map (fun e => p_size (fst e) + p_pad_bytes (fst e)) es)) in An. lia.
    + rewrite zlen_app, (zlen_enc_header _ W3), SUM. lia.
  - apply holds_lay. exact H.
  - unfold HDR_SIZE. lia.
  - unfold HDR_SIZE. lia.
  - rewrite Fp. unfold HDR_SIZE. rewrite <- LH. rewrite slice_app_r by lia. rewrite Z.sub_diag. apply slice_full. reflexivity.
  - left. auto.
Qed.
End B.
