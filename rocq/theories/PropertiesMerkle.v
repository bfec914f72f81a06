(* PropertiesMerkle.v -- C14..C18.  Specification: MerkleSpec.v,
   MerkleVerifySpec.v.  [sha] is any hash function with the right digest
   sizes. *)
From Verif Require Import BaseLemmas HeaderModel HashModel MerkleModel MerkleSpec MerkleSizes
  MerkleProofs VerifyModel MerkleVerifySpec MerkleApi.

(* ---- C14 ---- *)
Theorem C14_merkle_size : forall n, 0 <= n < 2^64 ->
  (n mod 4096 <> 0 -> merkle_compute_size n = Err E_BAD_ALIGNMENT) /\
  (n mod 4096 = 0 -> (0 < n <= 2^40 <-> exists s, merkle_compute_size n = Ok s) /\
     (~ (0 < n <= 2^40) -> merkle_compute_size n = Err E_NO_SPACE_LEFT) /\
     (forall s, merkle_compute_size n = Ok s ->
        exists l, tree_blocks (n / 4096) l /\ zlen l <= 4 /\ s = 4096 * zsum l /\ s < 2^63)).
Proof. exact compute_size_spec. Qed.
Print Assumptions C14_merkle_size.
Example C14_instance : tree_blocks 20000 [157; 2; 1] /\ merkle_compute_size (20000 * 4096) = Ok (160 * 4096).
Proof.
  split; [|reflexivity].
  apply (tb_more 20000); [lia|]. apply (tb_more 157); [lia|]. apply (tb_top 2). lia.
Qed.

(* ---- C15: any store, any callbacks ---- *)
Theorem C15_merkle_chunking : forall (S : Type) sha (d : io S) s n salt off zero c s0 chunks1 chunks2,
  merkle_init d s n salt off zero = (c, Ok s0) ->
  concat chunks1 = concat chunks2 -> zlen (concat chunks1) <= n ->
  write_chunks sha d c s0 chunks1 = write_chunks sha d c s0 chunks2.
Proof. exact @chunking_irrelevant. Qed.
Print Assumptions C15_merkle_chunking.
Example C15_instance : exists c s0, merkle_init mem_io (zeros 4096) 12288 ex_salt 0 true = (c, Ok s0) /\
  exists x, write_chunks toy_sha mem_io c s0 [ex_data] = Ok x /\
            write_chunks toy_sha mem_io c s0 [ztake 5000 ex_data; []; zdrop 5000 ex_data] = Ok x.
Proof. eexists. eexists. split; [vm_compute; reflexivity|]. eexists. split; vm_compute; reflexivity. Qed.

(* ---- C16: the whole run, in a region M of any memory A ++ M ++ B ---- *)
Theorem C16_merkle_tree_and_root : forall sha d, good_hash sha -> mem_like d ->
  forall A M B data salt chunks zero ls n,
  zlen data = n -> 0 < n -> n mod 4096 = 0 -> n <= 2^33 -> zlen salt <= 32 ->
  concat chunks = data -> hash_levels sha salt data ls -> zlen M = zlen (hash_tree ls) ->
  (zero = true \/ M = zeros (zlen M)) ->
  exists c s0, merkle_init d (A ++ M ++ B) n salt (zlen A) zero = (c, Ok s0) /\
    mk_tree_length c = zlen (hash_tree ls) /\
    exists c' s', write_chunks sha d c s0 chunks = Ok (c', s') /\
      merkle_finish sha d c' s' = Ok (A ++ hash_tree ls ++ B, root_hash sha salt data ls).
Proof. exact merkle_run. Qed.
Print Assumptions C16_merkle_tree_and_root.
(* the specified tree exists and is unique, so C16 is never vacuous *)
Theorem C16_specified_tree_exists : forall sha salt data,
  good_hash sha -> 0 < zlen data -> zlen data mod 4096 = 0 ->
  exists ls, hash_levels sha salt data ls /\ forall ls', hash_levels sha salt data ls' -> ls' = ls.
Proof. exact hash_levels_total. Qed.
Print Assumptions C16_specified_tree_exists.
Example C16_instance : good_hash toy_sha /\ mem_like mem_io /\
  (exists ls, hash_levels toy_sha ex_salt (zeros (130 * 4096)) ls /\ length ls = 2%nat) /\
  hash_levels toy_sha ex_salt ex_data ex_tree /\ zlen ex_data = 12288.
Proof. exact (conj toy_sha_good (conj mem_io_like (conj ex_big (conj ex_tree_ok ex_data_len)))). Qed.

(* ---- C17 ---- *)
(* false of the code: sizes in (8 GiB, 1 TiB] are sized but refused *)
Theorem C17_size_init_agree_refuted : exists n s, merkle_compute_size n = Ok s /\
  forall (S : Type) (d : io S) st salt off zero, zlen salt <= 32 ->
    snd (merkle_init d st n salt off zero) = Err E_NO_SPACE_LEFT.
Proof. exact init_too_deep. Qed.
Print Assumptions C17_size_init_agree_refuted.
(* missing: n in (2^33, 2^40] *)
Theorem C17_size_init_agree_partial : forall n salt, 0 < n <= 2^33 -> n mod 4096 = 0 -> zlen salt <= 32 ->
  exists s, merkle_compute_size n = Ok s /\ 0 < s /\
  forall sha data chunks M, good_hash sha -> zlen data = n -> concat chunks = data -> zlen M = s ->
  exists c s0 c' s' T root, merkle_init mem_io M n salt 0 true = (c, Ok s0) /\ mk_tree_length c = s /\
    write_chunks sha mem_io c s0 chunks = Ok (c', s') /\
    merkle_finish sha mem_io c' s' = Ok (T, root) /\ zlen T = s.
Proof. exact size_init_agree. Qed.
Print Assumptions C17_size_init_agree_partial.
Example C17_instance : 0 < 12288 <= 2^33 /\ 12288 mod 4096 = 0 /\ zlen ex_salt <= 32 /\
  merkle_compute_size 12288 = Ok 4096.
Proof. vm_compute. intuition congruence. Qed.

(* ---- C18 ---- *)
(* exact acceptance criterion and possible errors, any stored bytes *)
Theorem C18_verify_decides : forall sha f P Q ts data_offset n expected salt,
  good_hash sha -> f = P ++ hash_tree ts ++ Q ->
  (exists l, tree_blocks (n / 4096) l /\ map zlen ts = map (Z.mul 4096) l) ->
  0 < n -> n mod 4096 = 0 -> n <= 2^33 -> zlen salt <= 32 ->
  0 <= data_offset -> data_offset + n <= zlen f ->
  let x := verify_merkle_tree sha (file_rd f) data_offset n (zlen P) expected salt in
  (x = Ok tt <-> chain sha salt (slice data_offset n f) ts /\
                 expected = root_hash sha salt (slice data_offset n f) ts) /\
  (x = Ok tt \/ x = Err E_VERIFY_FAIL \/ x = Err E_BAD_ROOT_HASH).
Proof. exact verify_total. Qed.
Print Assumptions C18_verify_decides.
Theorem C18_verify_complete : forall sha f P Q ls data_offset salt data,
  good_hash sha -> f = P ++ hash_tree ls ++ Q -> hash_levels sha salt data ls ->
  0 < zlen data <= 2^33 -> zlen data mod 4096 = 0 -> zlen salt <= 32 ->
  0 <= data_offset -> data_offset + zlen data <= zlen f -> slice data_offset (zlen data) f = data ->
  verify_merkle_tree sha (file_rd f) data_offset (zlen data) (zlen P) (root_hash sha salt data ls) salt = Ok tt.
Proof. exact verify_genuine. Qed.
Print Assumptions C18_verify_complete.
(* false of the code: with one data block the stored tree's padding is not
   compared, whatever the hash function *)
Theorem C18_every_tree_byte_checked_refuted : forall sha salt data,
  good_hash sha -> zlen salt <= 32 -> zlen data = 4096 ->
  exists ls T, hash_levels sha salt data ls /\ T <> hash_tree ls /\ zlen T = zlen (hash_tree ls) /\
    verify_merkle_tree sha (file_rd (data ++ T)) 0 4096 4096 (root_hash sha salt data ls) salt = Ok tt.
Proof. exact single_block_padding_free. Qed.
Print Assumptions C18_every_tree_byte_checked_refuted.
(* missing: the tree bytes of single-block data (refuted above) *)
Theorem C18_verify_sound_partial : forall sha f P Q ts data_offset salt orig ls,
  good_hash sha -> hash_levels sha salt orig ls ->
  f = P ++ hash_tree ts ++ Q -> map zlen ts = map zlen ls ->
  0 < zlen orig <= 2^33 -> zlen orig mod 4096 = 0 -> zlen salt <= 32 ->
  0 <= data_offset -> data_offset + zlen orig <= zlen f ->
  verify_merkle_tree sha (file_rd f) data_offset (zlen orig) (zlen P) (root_hash sha salt orig ls) salt = Ok tt ->
  sha256_collision sha \/
  (slice data_offset (zlen orig) f = orig /\ (zlen orig <> 4096 -> hash_tree ts = hash_tree ls)).
Proof. exact verify_sound. Qed.
Print Assumptions C18_verify_sound_partial.
Example C18_instance :
  verify_merkle_tree toy_sha (file_rd (ex_data ++ hash_tree ex_tree)) 0 12288 12288
    (root_hash toy_sha ex_salt ex_data ex_tree) ex_salt = Ok tt /\
  verify_merkle_tree toy_sha (file_rd (splice 5000 [8] ex_data ++ hash_tree ex_tree)) 0 12288 12288
    (root_hash toy_sha ex_salt ex_data ex_tree) ex_salt = Err E_VERIFY_FAIL.
Proof. split; vm_compute; reflexivity. Qed.
