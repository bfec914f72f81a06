(* MerkleApi.v -- the Merkle lemmas in the form the properties need, and a
   concrete hash function and data for the non-vacuity examples *)
From Verif Require Import BaseLemmas HeaderModel CrcModel HashModel MerkleModel MerkleSpec MerkleSizes
  MerkleChunks MerkleProofs VerifyModel MerkleVerifySpec MerkleVerify.

(* ---- a toy hash with the right digest sizes ---- *)
Definition toy_sha : hashfn := fun k m =>
  le (Z.to_nat (digest_len k)) (fold_left (fun a b => (a * 257 + b + 1) mod 1000000007) m k).
Lemma toy_sha_good : good_hash toy_sha.
Proof.
  intros k m H. unfold toy_sha. split; [|apply bytes_ok_le].
  rewrite zlen_le. unfold digest_len, HASH_SHA256, HASH_SHA384, HASH_SHA512. destruct (k =? 1), (k =? 2), (k =? 3); reflexivity.
Qed.

Lemma init_block_counter {S} (d : io S) s n salt off zero c s0 :
  merkle_init d s n salt off zero = (c, Ok s0) -> mk_block_counter c = 4096 /\ mk_input_length c = n.
Proof.
  unfold merkle_init. destruct (negb (n mod MBLOCK =? 0)); [discriminate|].
  destruct (32 <? zlen salt); [discriminate|].
  destruct (level_loop 5 0 n (repeat 0 4) 0) as [[lens total] [lv|e| |]]; try discriminate.
  intros E. injection E as <- _. split; reflexivity.
Qed.
Lemma chunking_irrelevant {S} sha (d : io S) s n salt off zero c s0 chunks1 chunks2 :
  merkle_init d s n salt off zero = (c, Ok s0) ->
  concat chunks1 = concat chunks2 -> zlen (concat chunks1) <= n ->
  write_chunks sha d c s0 chunks1 = write_chunks sha d c s0 chunks2.
Proof.
  intros Hi E Hl. apply init_block_counter in Hi as [H1 H2].
  rewrite !write_chunks_concat; unfold blk_ok; rewrite ?H1, ?H2, <- ?E; try lia. reflexivity.
Qed.

Lemma hash_levels_total sha salt data : good_hash sha -> 0 < zlen data -> zlen data mod 4096 = 0 ->
  exists ls, hash_levels sha salt data ls /\ forall ls', hash_levels sha salt data ls' -> ls' = ls.
Proof.
  intros Hg Hp Ha. destruct (tree_blocks_exists (zlen data / 4096)) as [l Hl]; [lia|].
  destruct (hash_levels_exists sha salt _ _ Hg Hl data) as (ls & H & _); [lia|].
  exists ls. split; auto. intros ls' H'. symmetry. eapply hash_levels_fun; eauto.
Qed.

Lemma init_too_deep : exists n s, merkle_compute_size n = Ok s /\
  forall (S : Type) (d : io S) st salt off zero, zlen salt <= 32 ->
    snd (merkle_init d st n salt off zero) = Err E_NO_SPACE_LEFT.
Proof.
  exists (2^33 + 4096). destruct (tree_blocks_exists ((2^33+4096)/4096)) as [l Hl]; [reflexivity|].
  assert (H3 : 3 < zlen l).
  { assert (~ zlen l <= 3); [|lia]. rewrite (tree_blocks_levels _ _ Hl 3) by lia.
    change (~ 2097153 <= 2097152). lia. }
  eexists. split; [vm_compute; reflexivity|]. intros S d st salt off zero Hs.
  destruct (init_rejects d st (2^33+4096) salt off zero l) as (c & E & _); auto; [lia|].
  rewrite E. reflexivity.
Qed.

Lemma size_init_agree n salt : 0 < n <= 2^33 -> n mod 4096 = 0 -> zlen salt <= 32 ->
  exists s, merkle_compute_size n = Ok s /\ 0 < s /\
  forall sha data chunks M, good_hash sha -> zlen data = n -> concat chunks = data -> zlen M = s ->
  exists c s0 c' s' T root, merkle_init mem_io M n salt 0 true = (c, Ok s0) /\ mk_tree_length c = s /\
    write_chunks sha mem_io c s0 chunks = Ok (c', s') /\
    merkle_finish sha mem_io c' s' = Ok (T, root) /\ zlen T = s.
Proof.
  intros Hn Ha Hs. destruct (compute_size_spec n ltac:(lia)) as [_ G]. destruct (G Ha) as (G1 & _ & G3).
  destruct (proj1 G1 ltac:(lia)) as [s Es]. exists s. split; auto.
  destruct (G3 s Es) as (l & Hl & _ & -> & _). pose proof (tree_blocks_sum _ _ Hl).
  split; [lia|].
  intros sha data chunks M Hg Hd Hch HM.
  destruct (hash_levels_exists sha salt _ _ Hg Hl data) as (ls & Hls & Hmap); [lia|].
  assert (Ht : zlen (hash_tree ls) = 4096 * zsum l) by (rewrite zlen_hash_tree, Hmap, zsum_map; reflexivity).
  destruct (merkle_run sha mem_io Hg mem_io_like [] M [] data salt chunks true ls n) as (c & s0 & E1 & E2 & c' & s' & E3 & E4);
    auto; try lia.
  cbn [app] in E1, E4. rewrite app_nil_r in E1, E4.
  exists c, s0, c', s', (hash_tree ls), (root_hash sha salt data ls). rewrite E2, Ht. auto.
Qed.

(* ---- C18 ---- *)
Lemma verify_genuine sha f P Q ls data_offset salt data :
  good_hash sha -> f = P ++ hash_tree ls ++ Q -> hash_levels sha salt data ls ->
  0 < zlen data <= 2^33 -> zlen data mod 4096 = 0 -> zlen salt <= 32 ->
  0 <= data_offset -> data_offset + zlen data <= zlen f -> slice data_offset (zlen data) f = data ->
  verify_merkle_tree sha (file_rd f) data_offset (zlen data) (zlen P) (root_hash sha salt data ls) salt = Ok tt.
Proof.
  intros Hg Hf Hls Hp Ha Hs Ho Hl Hd.
  destruct (verify_merkle_exact sha f Hg P Q ls data_offset (zlen data) (root_hash sha salt data ls) salt) as [G _];
    auto; try lia.
  { apply hash_levels_sized with (sha := sha) (salt := salt); auto; lia. }
  rewrite Hd in G. apply G. split; [|reflexivity]. now apply hash_levels_chain.
Qed.
Lemma verify_sound sha f P Q ts data_offset salt orig ls :
  good_hash sha -> hash_levels sha salt orig ls ->
  f = P ++ hash_tree ts ++ Q -> map zlen ts = map zlen ls ->
  0 < zlen orig <= 2^33 -> zlen orig mod 4096 = 0 -> zlen salt <= 32 ->
  0 <= data_offset -> data_offset + zlen orig <= zlen f ->
  verify_merkle_tree sha (file_rd f) data_offset (zlen orig) (zlen P) (root_hash sha salt orig ls) salt = Ok tt ->
  sha256_collision sha \/
  (slice data_offset (zlen orig) f = orig /\ (zlen orig <> 4096 -> hash_tree ts = hash_tree ls)).
Proof.
  intros Hg Hls Hf Hm Hp Ha Hs Ho Hl Hv.
  assert (S1 : sized (zlen orig / 4096) ls) by (apply hash_levels_sized with (sha := sha) (salt := salt); auto; lia).
  assert (S2 : sized (zlen orig / 4096) ts) by (destruct S1 as (l & ? & ?); exists l; split; auto; congruence).
  destruct (verify_merkle_exact sha f Hg P Q ts data_offset (zlen orig) (root_hash sha salt orig ls) salt) as [G _];
    auto; try lia.
  apply G in Hv as [C R].
  destruct (merkle_binding sha Hg salt (slice data_offset (zlen orig) f) orig ts ls (zlen orig)) as [?|[E1 E2]]; auto.
  - apply zlen_slice_in; lia.
  - lia.
  - now apply hash_levels_chain.
  - right. split; auto. intros. f_equal. auto.
Qed.
Lemma verify_total sha f P Q ts data_offset n expected salt :
  good_hash sha -> f = P ++ hash_tree ts ++ Q ->
  (exists l, tree_blocks (n / 4096) l /\ map zlen ts = map (Z.mul 4096) l) ->
  0 < n -> n mod 4096 = 0 -> n <= 2^33 -> zlen salt <= 32 ->
  0 <= data_offset -> data_offset + n <= zlen f ->
  let x := verify_merkle_tree sha (file_rd f) data_offset n (zlen P) expected salt in
  (x = Ok tt <-> chain sha salt (slice data_offset n f) ts /\
                 expected = root_hash sha salt (slice data_offset n f) ts) /\
  (x = Ok tt \/ x = Err E_VERIFY_FAIL \/ x = Err E_BAD_ROOT_HASH).
Proof.
  intros Hg Hf Hs Hp Ha Hm Hsalt Ho Hl x. subst x. destruct (verify_merkle_exact sha f Hg P Q ts data_offset n expected salt) as [G (x & <- & G2)]; auto.
Qed.

(* the padding of a one-block tree is not looked at *)
Lemma single_block_padding_free sha salt data : good_hash sha -> zlen salt <= 32 -> zlen data = 4096 ->
  exists ls T, hash_levels sha salt data ls /\ T <> hash_tree ls /\ zlen T = zlen (hash_tree ls) /\
    verify_merkle_tree sha (file_rd (data ++ T)) 0 4096 4096 (root_hash sha salt data ls) salt = Ok tt.
Proof.
  intros Hg Hs Hd. destruct (hash_levels_total sha salt data Hg ltac:(lia)) as (ls & Hls & _).
  { rewrite Hd. reflexivity. }
  pose proof (hash_levels_sized sha Hg salt data ls Hls) as S1. rewrite Hd in S1.
  specialize (S1 eq_refl eq_refl). change (4096 / 4096) with 1 in S1. destruct S1 as (l & Hl & Hmap).
  assert (l = [1]) as -> by (inversion Hl; subst; auto; lia).
  destruct ls as [|L0 [|]]; try discriminate. cbn [map] in Hmap. injection Hmap as HL.
  change (zlen L0 = 4096) in HL.
  set (h := sha 1 (salt ++ data)). assert (Eh : zlen h = 32) by (apply zlen_sha256; auto).
  pose proof (hash_levels_chain sha Hg salt _ _ Hls) as C. apply chain_inv in C as [C _].
  rewrite Hd in C. change (Z.to_nat (4096 / 4096)) with 1%nat in C. change (32 * (4096 / 4096)) with 32 in C.
  cbn [block_hashes] in C. rewrite (ztake_all 4096 data) in C by lia. rewrite app_nil_r in C. fold h in C.
  set (T := h ++ repeat 1 (Z.to_nat 4064)).
  assert (HT : zlen T = 4096) by (unfold T; rewrite zlen_app, zlen_repeat, Eh; reflexivity).
  exists [L0], T. unfold hash_tree. cbn [rev app concat]. rewrite app_nil_r.
  split; auto. split.
  { inversion Hls as [d0 Hz|d0 ls0 Hz Hh]; subst; [|inversion Hh]. intros E.
    assert (E2 : zdrop 32 T = zdrop 32 (level_above sha salt data)) by now rewrite E.
    unfold T, level_above in E2. rewrite Hd in E2. change (Z.to_nat (4096 / 4096)) with 1%nat in E2.
    cbn [block_hashes] in E2. rewrite (ztake_all 4096 data) in E2 by lia. rewrite app_nil_r in E2. fold h in E2.
    rewrite !zdrop_app_r in E2 by lia. rewrite Eh in E2. discriminate E2. }
  split; [lia|].
  destruct (verify_merkle_exact sha (data ++ T) Hg data [] [T] 0 4096 (root_hash sha salt data [L0]) salt) as [G _]; auto; try lia.
  - unfold hash_tree. cbn [rev app concat]. rewrite !app_nil_r. reflexivity.
  - exists [1]. split; [constructor; lia|]. cbn [map]. rewrite HT. reflexivity.
  - rewrite zlen_app, Hd. pose proof (zlen_nonneg T). lia.
  - rewrite Hd in G. apply G. rewrite slice_0, ztake_app_l by lia. rewrite ztake_all by lia. split.
    + constructor; [|constructor]. rewrite Hd. change (Z.to_nat (4096 / 4096)) with 1%nat.
      change (32 * (4096 / 4096)) with 32. cbn [block_hashes]. rewrite (ztake_all 4096 data) by lia.
      rewrite app_nil_r. fold h. unfold T. rewrite ztake_app_l by lia. now rewrite ztake_all by lia.
    + unfold root_hash. rewrite Hd. reflexivity.
Qed.

(* ---- example data: 130 blocks (two tree levels) would be slow to compute
   with; three blocks and one block are used for the computed examples ---- *)
Definition ex_data : bytes := repeat 7 (Z.to_nat 4096) ++ repeat 9 (Z.to_nat 8192).
Definition ex_salt : bytes := repeat 3 32.
Definition ex_tree : list bytes := [level_above toy_sha ex_salt ex_data].
Lemma ex_tree_ok : hash_levels toy_sha ex_salt ex_data ex_tree.
Proof. constructor. vm_compute. reflexivity. Qed.
Lemma ex_data_len : zlen ex_data = 12288. Proof. vm_compute. reflexivity. Qed.
(* a two-level tree exists for 130 blocks *)
Lemma ex_big : exists ls, hash_levels toy_sha ex_salt (zeros (130 * 4096)) ls /\ length ls = 2%nat.
Proof.
  destruct (hash_levels_total toy_sha ex_salt (zeros (130 * 4096)) toy_sha_good) as (ls & H & _).
  - reflexivity.
  - rewrite zlen_zeros. reflexivity.
  - exists ls. split; auto. pose proof (hash_levels_sized _ toy_sha_good _ _ _ H) as G.
    rewrite zlen_zeros in G. destruct G as (l & Hl & Hm); [reflexivity|reflexivity|].
    change (Z.max 0 (130 * 4096) / 4096) with 130 in Hl.
    assert (T : tree_blocks 130 [2; 1]) by (apply tb_more; [lia|apply tb_top; unfold ceil128; lia]).
    rewrite (tree_blocks_fun _ _ Hl _ T) in Hm.
    pose proof (f_equal (@length Z) Hm) as L. rewrite !map_length in L. exact L.
Qed.
