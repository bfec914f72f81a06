(* MerkleSizes.v -- tree sizes and the layout computed by bpak_merkle_init *)
From Verif Require Import BaseLemmas HeaderModel HashModel MerkleModel MerkleSpec.

Lemma next_level_eq c : 0 <= c -> 4096 * c < 2^64 -> next_level (4096 * c) = 4096 * ceil128 c.
Proof.
  intros H0 H1. unfold next_level, MBLOCK.
  replace (Z.shiftr (4096 * c) 12) with c.
  2:{ rewrite Z.shiftr_div_pow2 by lia. change (2^12) with 4096. lia. }
  change (4096 - 1) with (Z.ones 12). rewrite Z.land_ones by lia. change (2^12) with 4096.
  unfold u64, ceil128. rewrite <- Znumtheory.Zmod_div_mod by (try lia; now exists (2^52)).
  replace (Z.lnot (c * 32) + 1) with (- (c * 32)) by (unfold Z.lnot; lia). lia.
Qed.
Lemma ceil128_range c : 0 < c -> 1 <= ceil128 c <= c.
Proof. unfold ceil128. lia. Qed.
Lemma tree_blocks_exists c : 0 < c -> exists l, tree_blocks c l.
Proof.
  intros Hc. revert Hc. pattern c. apply (well_founded_induction (Z.lt_wf 0)). clear c.
  intros c IH Hc. destruct (Z_le_gt_dec c 128).
  - exists [1]. now constructor.
  - destruct (IH (ceil128 c)) as [l Hl]; [unfold ceil128; lia..|].
    exists (ceil128 c :: l). constructor; auto; lia.
Qed.
Lemma tree_blocks_fun c l1 : tree_blocks c l1 -> forall l2, tree_blocks c l2 -> l1 = l2.
Proof.
  induction 1 as [c H|c l H Hl IH]; intros l2 H2; inversion H2; subst; try lia; auto.
  f_equal. now apply IH.
Qed.
Lemma tree_blocks_pos c l : tree_blocks c l -> 0 < c /\ (1 <= length l)%nat.
Proof. induction 1; cbn [length]; lia. Qed.
Lemma tree_blocks_sum c l : tree_blocks c l -> 0 < zsum l <= c.
Proof.
  induction 1 as [c H|c l H Hl [IH1 IH2]]; cbn [zsum fold_right]; [lia|].
  fold (zsum l). unfold ceil128 in *. lia.
Qed.
Lemma ceil_pow c k : 128 < c -> (ceil128 c <= 128 ^ k <-> c <= 128 * 128 ^ k).
Proof. intros. unfold ceil128. lia. Qed.
Lemma tree_blocks_levels c l : tree_blocks c l -> forall k, 1 <= k ->
  (zlen l <= k <-> c <= 128 ^ k).
Proof.
  induction 1 as [c H|c l H Hl IH]; intros k Hk.
  - change (zlen [1]) with 1. assert (128 ^ 1 <= 128 ^ k) by (apply Z.pow_le_mono_r; lia).
    split; intros; lia.
  - rewrite zlen_cons. destruct (Z.eq_dec k 1) as [->|].
    + pose proof (tree_blocks_pos _ _ Hl). change (128 ^ 1) with 128. unfold zlen. lia.
    + specialize (IH (k - 1)). assert (E : 128 ^ k = 128 * 128 ^ (k - 1)).
      { rewrite <- Z.pow_succ_r by lia. f_equal. lia. }
      rewrite E. rewrite <- (ceil_pow c (k-1)) by lia. lia.
Qed.

Lemma compute_size_loop_eq c l : tree_blocks c l -> forall fuel level r,
  4096 * c < 2^64 -> 0 <= level -> 5 <= level + Z.of_nat fuel ->
  level <= 4 ->
  compute_size_loop fuel level (4096 * c) r =
    if 4 <? level + zlen l then Err E_NO_SPACE_LEFT else Ok (r + 4096 * zsum l).
Proof.
  induction 1 as [c H|c l H Hl IH]; intros fuel level r Hc Hlv Hf Hlv4.
  - destruct fuel as [|fuel]; [lia|]. cbn [compute_size_loop].
    rewrite next_level_eq by lia. replace (ceil128 c) with 1 by (unfold ceil128; lia).
    unfold MAX_LEVELS, MBLOCK. cbn [zsum fold_right]. cbn [zlen length Z.of_nat Pos.of_succ_nat].
    change (4096 * 1 =? 4096) with true. cbv iota. change (zlen [1]) with 1.
    destruct (Z.ltb_spec 4 (level + 1)); [reflexivity|]. f_equal; lia.
  - destruct fuel as [|fuel]; [lia|]. cbn [compute_size_loop].
    rewrite next_level_eq by lia. unfold MAX_LEVELS, MBLOCK.
    pose proof (tree_blocks_pos _ _ Hl) as [? ?].
    destruct (Z.eqb_spec (4096 * ceil128 c) 4096); [unfold ceil128 in *; lia|].
    rewrite zlen_cons. assert (1 <= zlen l) by (unfold zlen; lia).
    destruct (Z.ltb_spec 4 (level + 1)).
    + destruct (Z.ltb_spec 4 (level + (1 + zlen l))); [reflexivity|lia].
    + rewrite IH; [|unfold ceil128 in *; lia..].
      cbn [zsum fold_right]. fold (zsum l). replace (level + 1 + zlen l) with (level + (1 + zlen l)) by lia.
      destruct (4 <? level + (1 + zlen l)); [reflexivity|]. f_equal. lia.
Qed.

Lemma aligned_mult n : 0 <= n -> n mod 4096 = 0 -> n = 4096 * (n / 4096).
Proof. lia. Qed.
Theorem compute_size_spec n : 0 <= n < 2^64 ->
  (n mod 4096 <> 0 -> merkle_compute_size n = Err E_BAD_ALIGNMENT) /\
  (n mod 4096 = 0 -> (0 < n <= 2^40 <-> exists s, merkle_compute_size n = Ok s) /\
     (~ (0 < n <= 2^40) -> merkle_compute_size n = Err E_NO_SPACE_LEFT) /\
     (forall s, merkle_compute_size n = Ok s ->
        exists l, tree_blocks (n / 4096) l /\ zlen l <= 4 /\ s = 4096 * zsum l /\ s < 2^63)).
Proof.
  intros Hn. unfold merkle_compute_size, MBLOCK.
  split; [intros H; destruct (Z.eqb_spec (n mod 4096) 0); [contradiction|reflexivity]|].
  intros Ha. rewrite Ha. cbn [Z.eqb negb].
  destruct (Z.eq_dec n 0) as [->|Hn0].
  { split; [|split].
    - split; [lia|]. intros [s Hs]. vm_compute in Hs. discriminate.
    - intros _. vm_compute. reflexivity.
    - intros s Hs. vm_compute in Hs. discriminate. }
  destruct (tree_blocks_exists (n / 4096)) as [l Hl]; [lia|].
  assert (E : compute_size_loop 5 0 n 0 = if 4 <? zlen l then Err E_NO_SPACE_LEFT else Ok (4096 * zsum l)).
  { rewrite (aligned_mult n) by lia. rewrite (compute_size_loop_eq _ _ Hl) by lia.
    rewrite Z.add_0_l. destruct (4 <? zlen l); reflexivity. }
  rewrite E. pose proof (tree_blocks_levels _ _ Hl 4 ltac:(lia)) as G.
  assert (G' : zlen l <= 4 <-> n <= 2^40). { rewrite G. change (128^4) with (2^28). lia. }
  pose proof (tree_blocks_sum _ _ Hl).
  destruct (Z.ltb_spec 4 (zlen l)); (split; [|split]).
  - split; [lia|]. intros [s Hs]. discriminate.
  - reflexivity.
  - discriminate.
  - split; [|lia]. intros _. eauto.
  - lia.
  - intros s Hs. injection Hs as Hs. exists l. split; [auto|]. split; [auto|]. split; [auto|]. rewrite <- Hs. change (4096 * zsum l < 2^63). lia.
Qed.

(* ---- the layout computed by init ---- *)
Fixpoint level_offsets (pos : Z) (lens : list Z) : list Z :=
  match lens with [] => [] | x :: r => (pos - x) :: level_offsets (pos - x) r end.
Lemma length_level_offsets lens : forall pos, length (level_offsets pos lens) = length lens.
Proof. induction lens; intros; cbn; auto. Qed.
Lemma nth_level_offsets lens : forall pos i, (i < length lens)%nat -> pos = zsum lens ->
  nth i (level_offsets pos lens) 0 = zsum (skipn (S i) lens).
Proof.
  induction lens as [|x r IH]; intros pos i Hi Hp; [cbn in Hi; lia|].
  cbn [zsum fold_right] in Hp. fold (zsum r) in Hp. cbn [level_offsets].
  destruct i as [|i]; cbn [nth skipn].
  - destruct r; cbn [skipn]; lia.
  - cbn [length] in Hi. rewrite IH by lia. reflexivity.
Qed.

Lemma list_upd_at {A} (x y : A) a b : list_upd (length a) x (a ++ y :: b) = a ++ x :: b.
Proof. apply list_upd_middle. Qed.

Lemma level_loop_ok c l : tree_blocks c l -> forall fuel level pre post total,
  4096 * c < 2^64 -> level = zlen pre -> 5 <= level + Z.of_nat fuel ->
  level + zlen l <= 3 -> (length l <= length post)%nat ->
  level_loop fuel level (4096 * c) (pre ++ post) total =
    (pre ++ map (Z.mul 4096) l ++ skipn (length l) post, total + 4096 * zsum l, Ok (level + zlen l)).
Proof.
  induction 1 as [c H|c l H Hl IH]; intros fuel level pre post total Hc Hlv Hf Hl3 Hpost.
  - destruct fuel as [|fuel]; [unfold zlen in *; cbn in *; lia|]. cbn [level_loop].
    rewrite next_level_eq by lia. replace (ceil128 c) with 1 by (unfold ceil128; lia).
    destruct post as [|y post]; [cbn in Hpost; lia|].
    replace (Z.to_nat level) with (length pre) by (unfold zlen in Hlv; lia). rewrite list_upd_at.
    change (zlen [1]) with 1 in *. unfold MAX_LEVELS, MBLOCK.
    destruct (Z.leb_spec 4 (level + 1)); [lia|].
    change (4096 * 1 =? 4096) with true. cbv iota. cbn [map app length skipn zsum fold_right]. reflexivity.
  - pose proof (zlen_nonneg (ceil128 c :: l)). destruct fuel as [|fuel]; [lia|]. cbn [level_loop].
    rewrite next_level_eq by lia. unfold MAX_LEVELS, MBLOCK.
    destruct post as [|y post]; [cbn in Hpost; lia|]. rewrite zlen_cons in Hl3.
    replace (Z.to_nat level) with (length pre) by (unfold zlen in Hlv; lia). rewrite list_upd_at.
    pose proof (zlen_nonneg l).
    destruct (Z.leb_spec 4 (level + 1)); [lia|].
    destruct (Z.eqb_spec (4096 * ceil128 c) 4096); [unfold ceil128 in *; lia|].
    replace (pre ++ 4096 * ceil128 c :: post) with ((pre ++ [4096 * ceil128 c]) ++ post)
      by now rewrite <- app_assoc.
    rewrite IH; [| unfold ceil128 in *; lia | zlia | lia | lia | cbn [length] in Hpost; lia].
    rewrite <- app_assoc. cbn [map app length skipn zsum fold_right]. fold (zsum l).
    rewrite zlen_cons. rewrite Z.add_assoc. rewrite <- Z.add_assoc, <- Z.mul_add_distr_l, <- Z.add_assoc. reflexivity.
Qed.
Lemma level_loop_err c l : tree_blocks c l -> forall fuel level lens total,
  4096 * c < 2^64 -> 0 <= level <= 3 -> 5 <= level + Z.of_nat fuel -> 3 < level + zlen l ->
  exists lens' total', level_loop fuel level (4096 * c) lens total = (lens', total', Err E_NO_SPACE_LEFT).
Proof.
  induction 1 as [c H|c l H Hl IH]; intros fuel level lens total Hc Hlv Hf Hl3.
  - destruct fuel as [|fuel]; [lia|]. cbn [level_loop]. change (zlen [1]) with 1 in *.
    unfold MAX_LEVELS. destruct (Z.leb_spec 4 (level + 1)); [eauto|lia].
  - destruct fuel as [|fuel]; [lia|]. cbn [level_loop]. unfold MAX_LEVELS, MBLOCK.
    destruct (Z.leb_spec 4 (level + 1)); [eauto|]. rewrite next_level_eq by lia.
    destruct (Z.eqb_spec (4096 * ceil128 c) 4096); [unfold ceil128 in *; lia|].
    apply IH; [unfold ceil128 in *; lia|lia|lia|]. rewrite zlen_cons in Hl3. lia.
Qed.
Lemma offset_loop_eq : forall n i pos lens offs,
  (i + n <= length lens)%nat -> (i + n <= length offs)%nat ->
  offset_loop n i pos lens offs =
    firstn i offs ++ level_offsets pos (firstn n (skipn i lens)) ++ skipn (i + n) offs.
Proof.
  induction n as [|n IH]; intros i pos lens offs H1 H2.
  - cbn [offset_loop firstn level_offsets app]. rewrite Nat.add_0_r, firstn_skipn. reflexivity.
  - cbn [offset_loop]. rewrite IH by (rewrite ?length_list_upd; lia).
    destruct (nth_error lens i) as [x|] eqn:Ex; [|apply nth_error_None in Ex; lia].
    destruct (nth_error offs i) as [y|] eqn:Ey; [|apply nth_error_None in Ey; lia].
    destruct (nth_error_split _ _ Ex) as (la & lb & -> & Hla).
    destruct (nth_error_split _ _ Ey) as (oa & ob & -> & Hoa).
    assert (Hx : nth i (la ++ x :: lb) 0 = x). { subst i. apply nth_middle. }
    assert (F : forall (z : Z) a b m, length a = i ->
      firstn i (a ++ z :: b) = a /\ skipn i (a ++ z :: b) = z :: b /\
      firstn (S i) (a ++ z :: b) = a ++ [z] /\ skipn (S i) (a ++ z :: b) = b /\
      skipn (S i + m) (a ++ z :: b) = skipn m b).
    { intros z a b m Ha. rewrite !firstn_app, !skipn_app.
      replace (i - length a)%nat with 0%nat by lia. replace (S i - length a)%nat with 1%nat by lia.
      replace (S i + m - length a)%nat with (S m) by lia.
      rewrite (firstn_all2 (n:=i) a), (firstn_all2 (n:=S i) a) by lia.
      rewrite (skipn_all2 (n:=i) a), (skipn_all2 (n:=S i) a), (skipn_all2 (n:=S i + m) a) by lia.
      cbn [firstn skipn app]. rewrite app_nil_r. auto. }
    rewrite Hx. replace (list_upd i (pos - x) (oa ++ y :: ob)) with (oa ++ (pos - x) :: ob)
      by (rewrite <- Hoa; symmetry; apply list_upd_at).
    destruct (F x la lb 0%nat Hla) as (_ & E1 & _ & E2 & _). rewrite E1, E2.
    destruct (F (pos - x) oa ob n Hoa) as (_ & _ & E3 & _ & E4). rewrite E3, E4.
    destruct (F y oa ob n Hoa) as (E5 & _ & _ & _ & E6).
    replace (i + S n)%nat with (S i + n)%nat by lia. rewrite E5, E6.
    cbn [firstn level_offsets]. rewrite <- app_assoc. reflexivity.
Qed.

(* everything bpak_merkle_init puts in the context *)
Record init_ctx (c : mctx) (n : Z) (salt : bytes) (offset : Z) (l : list Z) : Prop := {
  ic_running : mk_running c = [];
  ic_levels : mk_levels c = zlen l;
  ic_lens : forall i, (i < length l)%nat -> nth i (mk_level_length c) 0 = 4096 * nth i l 0;
  ic_offs : forall i, (i < length l)%nat ->
    nth i (mk_level_offset c) 0 = 4096 * zsum (skipn (S i) l);
  ic_chunk : mk_chunk_counter c = 0;
  ic_block : mk_block_counter c = 4096;
  ic_input : mk_input_length c = n;
  ic_tree : mk_tree_length c = 4096 * zsum l;
  ic_salt : mk_salt c = salt;
  ic_finished : mk_finished c = false;
  ic_offset : mk_offset c = offset }.
Lemma zsum_map l : zsum (map (Z.mul 4096) l) = 4096 * zsum l.
Proof. induction l as [|x l IH]; [reflexivity|]. cbn [map zsum fold_right] in *. fold (zsum l) in *. fold (zsum (map (Z.mul 4096) l)). rewrite IH. lia. Qed.

Lemma init_accepts {S} (d : io S) s n salt offset zero l :
  0 < n < 2^64 -> n mod 4096 = 0 -> zlen salt <= 32 -> tree_blocks (n / 4096) l -> zlen l <= 3 ->
  exists c, merkle_init d s n salt offset zero =
      (c, if zero then zero_fill (Z.to_nat (4096 * zsum l / 32 + 1)) d s offset (4096 * zsum l) else Ok s) /\
    init_ctx c n salt offset l.
Proof.
  intros Hn Ha Hs Hl H3. unfold merkle_init, MBLOCK. rewrite Ha. cbn [Z.eqb negb].
  destruct (Z.ltb_spec 32 (zlen salt)); [lia|].
  assert (E : level_loop 5 0 n (repeat 0 4) 0 =
    (map (Z.mul 4096) l ++ skipn (length l) (repeat 0 4), 4096 * zsum l, Ok (zlen l))).
  { pose proof (level_loop_ok _ _ Hl 5 0 [] (repeat 0 4) 0) as G. cbn [app] in G.
    rewrite <- (aligned_mult n) in G by lia. rewrite !Z.add_0_l in G. apply G; try reflexivity; try lia.
    rewrite repeat_length. unfold zlen in H3. lia. }
  rewrite E. unfold zlen at 1. rewrite Nat2Z.id.
  set (lens := map (Z.mul 4096) l ++ skipn (length l) (repeat 0 4)).
  assert (Hlen : length lens = 4%nat).
  { unfold lens. rewrite app_length, map_length, skipn_length, repeat_length. unfold zlen in H3. lia. }
  assert (Hoff : offset_loop (length l) 0 (4096 * zsum l) lens (repeat 0 4) =
      level_offsets (4096 * zsum l) (map (Z.mul 4096) l) ++ skipn (length l) (repeat 0 4)).
  { unfold zlen in H3. rewrite offset_loop_eq by (rewrite ?Hlen, ?repeat_length; lia).
    rewrite skipn_O, firstn_O. cbn [app]. f_equal. f_equal. unfold lens. rewrite firstn_app, map_length, Nat.sub_diag.
    rewrite firstn_O, app_nil_r. apply firstn_all2. rewrite map_length. lia. }
  eexists. split; [reflexivity|]. constructor; try reflexivity; cbn [mk_level_length mk_level_offset].
  - intros i Hi. unfold lens. rewrite app_nth1 by (rewrite map_length; lia).
    change 0 with (4096 * 0) at 1. rewrite map_nth. reflexivity.
  - intros i Hi. rewrite Hoff. rewrite app_nth1 by (rewrite length_level_offsets, map_length; lia).
    rewrite nth_level_offsets by (rewrite ?map_length, ?zsum_map; lia).
    rewrite skipn_map, zsum_map. reflexivity.
Qed.
Lemma init_rejects {S} (d : io S) s n salt offset zero l :
  0 < n < 2^64 -> n mod 4096 = 0 -> zlen salt <= 32 -> tree_blocks (n / 4096) l -> 3 < zlen l ->
  exists c, merkle_init d s n salt offset zero = (c, Err E_NO_SPACE_LEFT) /\ mk_levels c = 0.
Proof.
  intros Hn Ha Hs Hl H3. unfold merkle_init, MBLOCK. rewrite Ha. cbn [Z.eqb negb].
  destruct (Z.ltb_spec 32 (zlen salt)); [lia|].
  destruct (level_loop_err _ _ Hl 5 0 (repeat 0 4) 0) as (lens & total & E); try lia.
  rewrite <- (aligned_mult n) in E by lia. rewrite E. eexists. split; reflexivity.
Qed.
