(* MerkleProofs.v -- the tree and root written by init / write_chunk / finish *)
From Verif Require Import BaseLemmas HeaderModel HashModel MerkleModel MerkleSpec MerkleSizes MerkleChunks.

Definition mem_like (d : io bytes) : Prop :=
  (forall s o b, 0 <= o -> o + zlen b <= zlen s -> io_wr d s o b = Ok (splice o b s)) /\
  (forall s o n, 0 <= o -> 0 <= n -> o + n <= zlen s -> io_rd d s o n = Ok (slice o n s)).
Lemma mem_io_like : mem_like mem_io.
Proof.
  split; intros; cbn [mem_io io_wr io_rd].
  - destruct (Z.leb_spec 0 o), (Z.leb_spec (o + zlen b) (zlen s)); try lia. reflexivity.
  - destruct (Z.leb_spec 0 o), (Z.leb_spec (o + n) (zlen s)); try lia. reflexivity.
Qed.

(* ---- splice algebra ---- *)
Lemma splice_splice {A} o (a b s : list A) : 0 <= o -> o + zlen a + zlen b <= zlen s ->
  splice (o + zlen a) b (splice o a s) = splice o (a ++ b) s.
Proof.
  intros Ho Hs. pose proof (zlen_nonneg a). pose proof (zlen_nonneg b). unfold splice.
  assert (Hta : zlen (ztake o s) = o) by (rewrite zlen_ztake; lia).
  rewrite (app_assoc (ztake o s) a). rewrite ztake_app_l by zlia.
  rewrite (ztake_all (o + zlen a)) by zlia.
  rewrite zdrop_app_r by zlia. rewrite zdrop_zdrop by zlia. rewrite <- !app_assoc.
  match goal with |- _ ++ _ ++ _ ++ zdrop ?x _ = _ ++ _ ++ _ ++ zdrop ?y _ =>
    replace x with y by zlia end. reflexivity.
Qed.
Lemma splice_app {A} o (a m b x : list A) : zlen a = o -> zlen x = zlen m -> splice o x (a ++ m ++ b) = a ++ x ++ b.
Proof.
  intros <- Hx. unfold splice. rewrite ztake_app_l, ztake_all by lia.
  rewrite zdrop_app_r by (pose proof (zlen_nonneg x); lia).
  replace (zlen a + zlen x - zlen a) with (zlen x) by lia.
  rewrite zdrop_app_r by lia. rewrite Hx, Z.sub_diag, zdrop_0. reflexivity.
Qed.
Lemma splice_zero_ext {A} o (s : list A) x : zlen x = 0 -> splice o x s = s.
Proof. intros H. apply zlen_0_nil in H as ->. apply splice_nil. Qed.

(* ---- hashes ---- *)
Lemma zlen_block_hashes sha salt : good_hash sha -> forall k d, zlen (block_hashes sha salt k d) = 32 * Z.of_nat k.
Proof.
  intros G. induction k as [|k IH]; intros d; cbn [block_hashes]; [reflexivity|].
  rewrite zlen_app, IH. destruct (G 1 (salt ++ ztake 4096 d) eq_refl) as [E _]. rewrite E.
  change (digest_len 1) with 32. lia.
Qed.
Lemma zlen_sha256 sha m : good_hash sha -> zlen (sha 1 m) = 32.
Proof. intros G. destruct (G 1 m eq_refl) as [E _]. exact E. Qed.
Lemma zlen_level_above sha salt d c : good_hash sha -> zlen d = 4096 * c -> 0 <= c ->
  zlen (level_above sha salt d) = 4096 * ceil128 c.
Proof.
  intros G Hd Hc. unfold level_above. rewrite zlen_app, zlen_zeros, zlen_block_hashes by auto.
  rewrite Z2Nat.id by lia. unfold ceil128. lia.
Qed.
(* contents and sizes have the same shape *)
Lemma hash_levels_exists sha salt c l : good_hash sha -> tree_blocks c l -> forall d, zlen d = 4096 * c ->
  exists ls, hash_levels sha salt d ls /\ map zlen ls = map (Z.mul 4096) l.
Proof.
  intros G. induction 1 as [c H|c l H Hl IH]; intros d Hd.
  - pose proof (zlen_level_above sha salt d c G Hd ltac:(lia)) as E.
    replace (ceil128 c) with 1 in E by (unfold ceil128; lia).
    exists [level_above sha salt d]. split; [now constructor|]. cbn [map]. now rewrite E.
  - pose proof (zlen_level_above sha salt d c G Hd ltac:(lia)) as E.
    destruct (IH _ E) as (ls & H1 & H2). exists (level_above sha salt d :: ls).
    split; [constructor; auto; rewrite E; unfold ceil128; lia|].
    cbn [map]. now rewrite E, H2.
Qed.
Lemma hash_levels_fun sha salt d l1 : hash_levels sha salt d l1 -> forall l2, hash_levels sha salt d l2 -> l1 = l2.
Proof.
  induction 1; intros l2 H2; inversion H2; subst; try lia; auto. f_equal. auto.
Qed.
Lemma hash_levels_head sha salt d ls : hash_levels sha salt d ls ->
  exists r, ls = level_above sha salt d :: r /\
    (r = [] \/ hash_levels sha salt (level_above sha salt d) r).
Proof. intros H; inversion H; subst; eauto. Qed.
Lemma hash_levels_last sha salt d ls : hash_levels sha salt d ls -> zlen (last ls []) = 4096.
Proof.
  induction 1 as [d H|d ls H Hl IH]; [exact H|].
  destruct (hash_levels_head _ _ _ _ Hl) as (r & -> & _). exact IH.
Qed.
Lemma zlen_hash_tree ls : zlen (hash_tree ls) = zsum (map zlen ls).
Proof.
  unfold hash_tree. induction ls as [|x ls IH]; [reflexivity|].
  cbn [rev map zsum fold_right]. fold (zsum (map zlen ls)).
  rewrite concat_app. cbn [concat]. rewrite app_nil_r, zlen_app, IH. lia.
Qed.
Lemma hash_tree_cons x ls : hash_tree (x :: ls) = hash_tree ls ++ x.
Proof. unfold hash_tree. cbn [rev]. rewrite concat_app. cbn [concat]. now rewrite app_nil_r. Qed.

Section Run.
Context (sha : hashfn) (d : io bytes) (Hg : good_hash sha) (Hm : mem_like d).
Let Hwr := proj1 Hm.
Let Hrd := proj2 Hm.

Lemma write_hashes_mem salt : forall k s pos data, 0 <= pos -> pos + 32 * Z.of_nat k <= zlen s ->
  write_hashes sha d k s salt pos data = Ok (splice pos (block_hashes sha salt k data) s).
Proof.
  induction k as [|k IH]; intros s pos data Hp Hs; cbn [write_hashes block_hashes].
  - now rewrite splice_nil.
  - pose proof (zlen_sha256 sha (salt ++ ztake 4096 data) Hg) as E.
    rewrite Hwr by lia. cbn [bind].
    rewrite IH; [|lia|rewrite zlen_splice by lia; lia]. f_equal.
    rewrite <- E at 1. apply splice_splice; [lia|].
    rewrite zlen_block_hashes by auto. lia.
Qed.
Lemma read_pieces_mem : forall k s pos acc, 0 <= pos -> pos + 32 * Z.of_nat k <= zlen s ->
  read_pieces d k s pos acc = Ok (acc ++ slice pos (32 * Z.of_nat k) s).
Proof.
  induction k as [|k IH]; intros s pos acc Hp Hs; cbn [read_pieces].
  - rewrite slice_neg_len by lia. now rewrite app_nil_r.
  - unfold MHASH. rewrite Hrd by lia. cbn [bind]. rewrite IH by lia.
    f_equal. rewrite <- app_assoc. f_equal.
    replace (32 * Z.of_nat (S k)) with (32 + 32 * Z.of_nat k) by lia.
    rewrite slice_split by lia. reflexivity.
Qed.
Lemma finish_level_mem salt : forall n s src dst,
  0 <= dst -> dst + 32 * Z.of_nat n <= src -> src + 4096 * Z.of_nat n <= zlen s ->
  finish_level sha d n s salt src dst =
    Ok (splice dst (block_hashes sha salt n (slice src (4096 * Z.of_nat n) s)) s).
Proof.
  induction n as [|n IH]; intros s src dst Hd Hds Hs; cbn [finish_level block_hashes].
  - now rewrite splice_nil.
  - rewrite read_pieces_mem by lia. cbn [bind].
    change (32 * Z.of_nat 128) with 4096.
    assert (E1 : ztake 4096 (slice src (4096 * Z.of_nat (S n)) s) = slice src 4096 s).
    { unfold slice. rewrite ztake_ztake. f_equal. lia. }
    assert (E2 : zdrop 4096 (slice src (4096 * Z.of_nat (S n)) s) = slice (src + 4096) (4096 * Z.of_nat n) s).
    { unfold slice. rewrite zdrop_ztake by lia. rewrite zdrop_zdrop by lia. f_equal; [lia|f_equal; lia]. }
    rewrite E1, E2. change HASH_SHA256 with 1. set (h := sha 1 (salt ++ slice src 4096 s)).
    assert (Eh : zlen h = 32) by (apply zlen_sha256; auto).
    clearbody h. rewrite Hwr by lia. cbn [bind].
    rewrite IH; [|unfold MHASH, MBLOCK; lia|unfold MHASH, MBLOCK; lia|].
    2:{ rewrite zlen_splice by lia. unfold MHASH, MBLOCK. lia. }
    unfold MBLOCK, MHASH. rewrite slice_splice_after by lia. f_equal.
    rewrite <- Eh at 1. apply splice_splice; [lia|]. rewrite zlen_block_hashes by auto. lia.
Qed.

(* a layout that fits a list of level contents *)
Definition ctx_layout (c : mctx) (ls : list bytes) : Prop :=
  mk_levels c = zlen ls /\
  (forall i, (i < length ls)%nat -> nth i (mk_level_length c) 0 = zlen (nth i ls [])) /\
  (forall i, (i < length ls)%nat -> nth i (mk_level_offset c) 0 = zsum (map zlen (skipn (S i) ls))).

Lemma finish_levels_mem c A B ls : ctx_layout c ls -> mk_offset c = zlen A ->
  forall i X low U, (1 <= i)%nat -> ls = low ++ X :: U -> S (length low) = i ->
  (U = [] \/ hash_levels sha (mk_salt c) X U) -> (exists cx, 0 < cx /\ zlen X = 4096 * cx) ->
  finish_levels sha d (length U) i c (A ++ zeros (zsum (map zlen U)) ++ X ++ B) =
    Ok (A ++ hash_tree U ++ X ++ B).
Proof.
  intros [_ [HL HO]] HA i X low U Hi Hls Hlow HU [cx [Hcx HX]].
  destruct HU as [->|HU]; [reflexivity|].
  revert i low B Hi Hls Hlow cx Hcx HX. induction HU as [X Htop|X U Hmore HU IH]; intros.
  - set (Y := level_above sha (mk_salt c) X) in *.
    cbn [length finish_levels map zsum fold_right].
    assert (Hn1 : nth (i - 1) ls [] = X). { subst ls i. replace (S (length low) - 1)%nat with (length low) by lia. apply nth_middle. }
    assert (Hn2 : nth i ls [] = Y). { subst ls i. rewrite app_nth2 by lia. replace (S (length low) - length low)%nat with 1%nat by lia. reflexivity. }
    assert (Hlen : length ls = S i) by (subst ls i; rewrite app_length; cbn [length]; lia).
    rewrite (HL (i - 1)%nat), (HO (i - 1)%nat), (HO i) by lia. rewrite Hn1, HA.
    replace (skipn (S (i - 1)) ls) with [Y].
    2:{ subst ls i. rewrite skipn_app, skipn_all2 by lia. replace (S (S (length low) - 1) - length low)%nat with 1%nat by lia. reflexivity. }
    rewrite (skipn_all2 (n := S i) ls) by lia. cbn [map zsum fold_right]. rewrite !Z.add_0_r.
    replace (zlen X / MBLOCK) with cx by (unfold MBLOCK; lia).
    assert (EY : zlen Y = 4096 * ceil128 cx) by (apply zlen_level_above; auto; lia).
    assert (Hc128 : 32 * cx <= zlen Y) by (rewrite EY; unfold ceil128; lia).
    rewrite finish_level_mem; [|zl; pose proof (zlen_nonneg A); pose proof (zlen_nonneg B); lia..].
    cbn [bind]. f_equal. rewrite Z2Nat.id by lia.
    assert (ES : slice (zlen A + zlen Y) (4096 * cx) (A ++ zeros (zlen Y) ++ X ++ B) = X).
    { rewrite app_assoc. apply slice_app_exact; zlia. }
    rewrite ES. set (h := block_hashes sha (mk_salt c) (Z.to_nat cx) X).
    assert (Eh : zlen h = 32 * cx) by (unfold h; rewrite zlen_block_hashes by auto; lia).
    assert (EYh : Y = h ++ zeros (zlen Y - zlen h)).
    { unfold Y, level_above. replace (zlen X / 4096) with cx by lia. fold h. f_equal. f_equal. zl.
      rewrite Z.max_r by lia. lia. }
    unfold hash_tree. cbn [rev concat app]. rewrite app_nil_r.
    replace (zeros (zlen Y)) with (zeros (zlen h) ++ zeros (zlen Y - zlen h)) by (rewrite zeros_app by lia; f_equal; lia).
    rewrite EYh at 2. rewrite <- !app_assoc. apply splice_app; zlia.
  - set (Y := level_above sha (mk_salt c) X) in *.
    cbn [length finish_levels map zsum fold_right]. fold (zsum (map zlen U)).
    assert (Hn1 : nth (i - 1) ls [] = X). { subst ls i. replace (S (length low) - 1)%nat with (length low) by lia. apply nth_middle. }
    assert (Hn2 : nth i ls [] = Y). { subst ls i. rewrite app_nth2 by lia. replace (S (length low) - length low)%nat with 1%nat by lia. reflexivity. }
    assert (Hlen : length ls = (S i + length U)%nat) by (subst ls i; rewrite app_length; cbn [length]; lia).
    rewrite (HL (i - 1)%nat), (HO (i - 1)%nat), (HO i) by lia. rewrite Hn1, HA.
    replace (skipn (S (i - 1)) ls) with (Y :: U).
    2:{ subst ls i. rewrite skipn_app, skipn_all2 by lia. replace (S (S (length low) - 1) - length low)%nat with 1%nat by lia. reflexivity. }
    replace (skipn (S i) ls) with U.
    2:{ subst ls i. rewrite skipn_app, skipn_all2 by lia. replace (S (S (length low)) - length low)%nat with 2%nat by lia. reflexivity. }
    cbn [map zsum fold_right]. fold (zsum (map zlen U)).
    replace (zlen X / MBLOCK) with cx by (unfold MBLOCK; lia).
    assert (EY : zlen Y = 4096 * ceil128 cx) by (apply zlen_level_above; auto; lia).
    assert (Hc128 : 32 * cx <= zlen Y) by (rewrite EY; unfold ceil128; lia).
    assert (HzU : 0 <= zsum (map zlen U)). { rewrite <- zlen_hash_tree. apply zlen_nonneg. }
    rewrite finish_level_mem; [|zl; pose proof (zlen_nonneg A); pose proof (zlen_nonneg B); lia..].
    cbn [bind]. rewrite Z2Nat.id by lia.
    assert (ES : slice (zlen A + (zlen Y + zsum (map zlen U))) (4096 * cx)
        (A ++ zeros (zlen Y + zsum (map zlen U)) ++ X ++ B) = X).
    { rewrite app_assoc. apply slice_app_exact; zlia. }
    rewrite ES. set (h := block_hashes sha (mk_salt c) (Z.to_nat cx) X).
    assert (Eh : zlen h = 32 * cx) by (unfold h; rewrite zlen_block_hashes by auto; lia).
    assert (EYh : Y = h ++ zeros (zlen Y - zlen h)).
    { unfold Y, level_above. replace (zlen X / 4096) with cx by lia. fold h. f_equal. f_equal. zl.
      rewrite Z.max_r by lia. lia. }
    assert (Espl : splice (zlen A + zsum (map zlen U)) h (A ++ zeros (zlen Y + zsum (map zlen U)) ++ X ++ B)
      = A ++ zeros (zsum (map zlen U)) ++ Y ++ (X ++ B)).
    { replace (zeros (zlen Y + zsum (map zlen U))) with (zeros (zsum (map zlen U)) ++ zeros (zlen h) ++ zeros (zlen Y - zlen h))
        by (rewrite !zeros_app by lia; f_equal; lia).
      rewrite EYh at 2. rewrite <- !app_assoc. rewrite (app_assoc A).
      rewrite splice_app by zlia. rewrite <- !app_assoc. reflexivity. }
    rewrite Espl.
    rewrite (IH (S i) (low ++ [X]) (X ++ B)) with (cx := ceil128 cx).
    + f_equal. rewrite hash_tree_cons, <- !app_assoc. reflexivity.
    + lia.
    + subst ls. rewrite <- app_assoc. reflexivity.
    + rewrite app_length. cbn [length]. lia.
    + unfold ceil128. lia.
    + exact EY.
Qed.

(* zero filling *)
Lemma zero_fill_mem : forall k fuel s pos, (k < fuel)%nat -> 0 <= pos ->
  pos + 32 * Z.of_nat k <= zlen s -> 32 * Z.of_nat k < 2^64 ->
  zero_fill fuel d s pos (32 * Z.of_nat k) = Ok (splice pos (zeros (32 * Z.of_nat k)) s).
Proof.
  induction k as [|k IH]; intros fuel s pos Hf Hp Hs Hb.
  - destruct fuel as [|f]; [lia|]. cbn [zero_fill]. change (32 * Z.of_nat 0) with 0. now rewrite splice_zero_ext.
  - destruct fuel as [|f]; [lia|]. cbn [zero_fill].
    destruct (Z.eqb_spec (32 * Z.of_nat (S k)) 0); [lia|]. unfold MHASH.
    assert (E : zlen (zeros 32) = 32) by zlia.
    rewrite Hwr by zlia. cbn [bind].
    replace (u64 (32 * Z.of_nat (S k) - 32)) with (32 * Z.of_nat k) by (unfold u64; rewrite Z.mod_small; lia).
    rewrite IH; [|lia|lia|rewrite zlen_splice by zlia; lia|lia]. f_equal.
    rewrite <- E at 1. rewrite splice_splice; [|lia|zlia]. f_equal. rewrite zeros_app by lia. f_equal. lia.
Qed.

(* the whole run inside a buffer [A ++ M ++ B], M being the tree area *)
Theorem merkle_run A M B data salt chunks zero ls n :
  zlen data = n -> 0 < n -> n mod 4096 = 0 -> n <= 2^33 -> zlen salt <= 32 ->
  concat chunks = data -> hash_levels sha salt data ls -> zlen M = zlen (hash_tree ls) ->
  (zero = true \/ M = zeros (zlen M)) ->
  exists c s0, merkle_init d (A ++ M ++ B) n salt (zlen A) zero = (c, Ok s0) /\
    mk_tree_length c = zlen (hash_tree ls) /\
    exists c' s', write_chunks sha d c s0 chunks = Ok (c', s') /\
      merkle_finish sha d c' s' = Ok (A ++ hash_tree ls ++ B, root_hash sha salt data ls).
Proof.
  intros Hn Hp Ha Hmax Hsalt Hch Hls HM Hz.
  destruct (tree_blocks_exists (n / 4096)) as [l Hl]; [lia|].
  assert (Hdata : zlen data = 4096 * (n / 4096)) by lia.
  destruct (hash_levels_exists sha salt _ _ Hg Hl data Hdata) as (ls' & Hls' & Hmap).
  rewrite <- (hash_levels_fun _ _ _ _ Hls _ Hls') in Hmap. clear ls' Hls'.
  assert (Hll : length ls = length l) by (pose proof (f_equal (@length Z) Hmap) as G; rewrite !map_length in G; exact G).
  assert (Hzl : zlen l <= 3).
  { apply (tree_blocks_levels _ _ Hl 3); [lia|]. change (128^3) with (2^21). lia. }
  assert (Hsum : zlen (hash_tree ls) = 4096 * zsum l).
  { rewrite zlen_hash_tree, Hmap, zsum_map. reflexivity. }
  pose proof (tree_blocks_sum _ _ Hl) as [Hs1 Hs2].
  destruct (init_accepts d (A ++ M ++ B) n salt (zlen A) zero l) as (c & Hinit & Hc); auto; [lia|].
  pose proof (zlen_nonneg A) as HA. pose proof (zlen_nonneg B) as HB.
  set (s0 := A ++ zeros (zlen M) ++ B).
  assert (Hinit' : merkle_init d (A ++ M ++ B) n salt (zlen A) zero = (c, Ok s0)).
  { rewrite Hinit. f_equal. destruct zero.
    - replace (4096 * zsum l) with (32 * Z.of_nat (Z.to_nat (128 * zsum l))) by lia.
      rewrite zero_fill_mem; [|lia|lia|zlia|lia]. f_equal. unfold s0. rewrite splice_app; [|reflexivity|zlia].
      f_equal. f_equal. f_equal. lia.
    - destruct Hz as [Hz|Hz]; [discriminate|]. unfold s0. rewrite <- Hz. reflexivity. }
  exists c, s0. split; [exact Hinit'|]. split; [rewrite (ic_tree _ _ _ _ _ Hc); lia|].
  assert (Hlay : ctx_layout c ls).
  { split; [rewrite (ic_levels _ _ _ _ _ Hc); unfold zlen; lia|]. split.
    - intros i Hi. rewrite (ic_lens _ _ _ _ _ Hc) by lia.
      pose proof (map_nth zlen ls [] i) as G1. rewrite Hmap in G1.
      change (zlen (@nil Z)) with (4096 * 0) in G1. rewrite map_nth in G1. exact G1.
    - intros i Hi. rewrite (ic_offs _ _ _ _ _ Hc) by lia.
      unfold bytes in *. rewrite <- skipn_map, Hmap, skipn_map, zsum_map. reflexivity. }
  destruct (hash_levels_head _ _ _ _ Hls) as (U & EU & HU).
  set (L0 := level_above sha salt data) in *.
  assert (EL0 : zlen L0 = 4096 * ceil128 (n / 4096)) by (apply zlen_level_above; auto; lia).
  assert (Htree : zlen (hash_tree ls) = zsum (map zlen U) + zlen L0).
  { rewrite EU, hash_tree_cons, zlen_app, zlen_hash_tree. reflexivity. }
  assert (HzU : 0 <= zsum (map zlen U)). { rewrite <- zlen_hash_tree. apply zlen_nonneg. }
  set (h := block_hashes sha salt (Z.to_nat (n / 4096)) data).
  assert (Eh : zlen h = 32 * (n / 4096)) by (unfold h; rewrite zlen_block_hashes by auto; lia).
  assert (Hh32 : zlen h <= zlen L0) by (rewrite EL0, Eh; unfold ceil128; lia).
  assert (EL0h : L0 = h ++ zeros (zlen L0 - zlen h)).
  { unfold L0, level_above. rewrite Hn. fold h. f_equal. f_equal. zl. rewrite Z.max_r by lia. lia. }
  assert (Hoff0 : nth 0 (mk_level_offset c) 0 = zsum (map zlen U)).
  { destruct Hlay as (_ & _ & G). rewrite G by (rewrite EU; cbn [length]; lia). rewrite EU. reflexivity. }
  assert (Es0 : s0 = A ++ zeros (zsum (map zlen U)) ++ zeros (zlen h) ++ zeros (zlen L0 - zlen h) ++ B).
  { unfold s0. rewrite HM, Htree. rewrite <- (zeros_app (zsum (map zlen U))) by lia.
    replace (zeros (zlen L0)) with (zeros (zlen h) ++ zeros (zlen L0 - zlen h)) by (rewrite zeros_app by lia; f_equal; lia).
    rewrite <- !app_assoc. reflexivity. }
  set (s1 := A ++ zeros (zsum (map zlen U)) ++ L0 ++ B).
  assert (Espl : splice (zlen A + zsum (map zlen U)) h s0 = s1).
  { rewrite Es0. unfold s1. rewrite EL0h at 2. rewrite <- !app_assoc. rewrite (app_assoc A).
    rewrite splice_app by zlia. rewrite <- !app_assoc. reflexivity. }
  assert (Hs0 : zlen s0 = zlen A + zlen (hash_tree ls) + zlen B) by (unfold s0; zlia).
  rewrite (write_chunks_concat sha d chunks c s0).
  2:{ unfold blk_ok. rewrite (ic_block _ _ _ _ _ Hc). lia. }
  2:{ rewrite (ic_input _ _ _ _ _ Hc), (ic_block _ _ _ _ _ Hc), Hch. lia. }
  rewrite Hch.
  destruct (Z.eq_dec n 4096) as [Hn1|Hn1].
  - (* a single block *)
    rewrite write_single by (rewrite ?(ic_block _ _ _ _ _ Hc), ?(ic_input _ _ _ _ _ Hc); lia).
    rewrite (ic_offset _ _ _ _ _ Hc), (ic_chunk _ _ _ _ _ Hc), (ic_salt _ _ _ _ _ Hc), Hoff0, Z.add_0_l.
    assert (Hh : h = sha 1 (salt ++ data)).
    { unfold h. rewrite Hn1. change (Z.to_nat (4096 / 4096)) with 1%nat. cbn [block_hashes].
      rewrite ztake_all by lia. apply app_nil_r. }
    rewrite <- Hh. rewrite Hwr by lia. cbn [bind]. do 2 eexists. split; [reflexivity|].
    unfold merkle_finish. cbn [mk_block_done mk_finished mk_buffer]. f_equal.
    assert (U = []).
    { destruct HU as [->|HU]; [reflexivity|]. rewrite EU in Hls. inversion Hls; subst; auto.
      exfalso. match goal with H : 4096 < zlen (level_above _ _ _) |- _ => fold L0 in H; rewrite EL0 in H; unfold ceil128 in H; lia end. }
    subst U. rewrite Espl. unfold s1, root_hash. rewrite EU. unfold hash_tree. cbn [rev app concat map zsum fold_right].
    rewrite app_nil_r, Hn, Hn1, Hh. change (4096 =? 4096) with true. reflexivity.
  - destruct (write_blocks sha d (Z.to_nat (n / 4096)) data c s0) as (c' & Hset & Hfin & Hw).
    { lia. } { apply (ic_block _ _ _ _ _ Hc). } { rewrite (ic_input _ _ _ _ _ Hc). lia. }
    rewrite (ic_offset _ _ _ _ _ Hc), (ic_chunk _ _ _ _ _ Hc), (ic_salt _ _ _ _ _ Hc), Hoff0, Z.add_0_l in Hw.
    rewrite write_hashes_mem in Hw by lia. fold h in Hw. rewrite Espl in Hw. cbn [bind] in Hw.
    exists c', s1. split; [exact Hw|].
    unfold merkle_finish. rewrite Hfin, (ic_finished _ _ _ _ _ Hc).
    destruct Hset as (G1 & G2 & G3 & G4 & G5 & G6 & G7).
    assert (Hlay' : ctx_layout c' ls). { unfold ctx_layout. rewrite G1, G2, G3. exact Hlay. }
    rewrite G3, (ic_levels _ _ _ _ _ Hc).
    replace (Z.to_nat (zlen l - 1)) with (length U).
    2:{ unfold zlen. rewrite <- Hll, EU. cbn [length]. lia. }
    assert (HU' : U = [] \/ hash_levels sha (mk_salt c') L0 U).
    { rewrite G6, (ic_salt _ _ _ _ _ Hc). exact HU. }
    unfold s1. rewrite (finish_levels_mem c' A B ls Hlay' ltac:(rewrite G7; apply (ic_offset _ _ _ _ _ Hc)) 1 L0 [] U); auto.
    2:{ exists (ceil128 (n / 4096)). split; [unfold ceil128; lia|exact EL0]. }
    cbn [bind]. assert (Hzl0 : 0 < zlen l). { unfold zlen. rewrite <- Hll, EU. cbn [length]. lia. }
    destruct (Z.eqb_spec (zlen l) 0); [lia|].
    destruct Hlay' as (_ & GL & GO). rewrite GL, GO by (rewrite EU; cbn [length]; lia).
    assert (Hlast : nth (length U) ls [] = last ls []).
    { rewrite EU. clear. generalize L0. induction U as [|x U IH]; intros; [reflexivity|]. exact (IH x). }
    rewrite Hlast. rewrite skipn_all2 by (rewrite EU; cbn [length]; lia). cbn [map zsum fold_right].
    rewrite (hash_levels_last _ _ _ _ Hls). change (Z.to_nat (4096 / MHASH)) with 128%nat.
    rewrite G7, (ic_offset _ _ _ _ _ Hc), G6, (ic_salt _ _ _ _ _ Hc), Z.add_0_r.
    assert (E4096 : 4096 <= zlen (hash_tree U ++ L0)).
    { rewrite zlen_app, zlen_hash_tree, EL0. unfold ceil128. lia. }
    rewrite read_pieces_mem; [|lia| zl; change (Z.of_nat 128) with 128; lia].
    cbn [bind]. change (32 * Z.of_nat 128) with 4096.
    assert (Htop : slice (zlen A) 4096 (A ++ hash_tree U ++ L0 ++ B) = last ls []).
    { pose proof (hash_levels_last _ _ _ _ Hls) as G.
      assert (exists rest, hash_tree U ++ L0 = last ls [] ++ rest) as [rest Hr].
      { rewrite EU, <- hash_tree_cons. unfold hash_tree.
        destruct (exists_last (l := L0 :: U)) as (pre & x & ->); [discriminate|].
        rewrite last_last, rev_app_distr. cbn [rev app concat]. eauto. }
      rewrite (app_assoc (hash_tree U)), Hr, <- app_assoc. apply slice_app_exact; auto. }
    rewrite Htop. replace (hash_tree ls) with (hash_tree U ++ L0) by (rewrite EU; symmetry; apply hash_tree_cons).
    rewrite <- app_assoc. unfold root_hash. destruct (Z.eqb_spec (zlen data) 4096); [lia|]. reflexivity.
Qed.
End Run.
