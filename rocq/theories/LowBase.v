(* LowBase.v -- codes of the header, hash, Merkle and verify functions *)
From Verif Require Import LowTac HeaderModel HashModel MerkleModel VerifyModel.

Lemma low_get_meta_int : forall x0 x1 x2 x3, low (get_meta_int x0 x1 x2 x3).
Proof. intros. unfold get_meta_int. lows. Qed.
#[export] Hint Resolve low_get_meta_int : low.
Lemma low_get_meta : forall x0 x1 x2, low (get_meta x0 x1 x2).
Proof. intros. unfold get_meta. lows. Qed.
#[export] Hint Resolve low_get_meta : low.
Lemma low_get_meta_anyref : forall x0 x1, low (get_meta_anyref x0 x1).
Proof. intros. unfold get_meta_anyref. lows. Qed.
#[export] Hint Resolve low_get_meta_anyref : low.
Lemma low_add_meta_loop : forall x0 x1 x2 x3 x4, low (snd (add_meta_loop x0 x1 x2 x3 x4)).
Proof. intros x0 x1 x2 x3 x4. intros. gens x4. induction x4; intros; cbn [add_meta_loop]; lows. Qed.
#[export] Hint Resolve low_add_meta_loop : low.
Lemma low_add_meta : forall x0 x1 x2 x3, low (snd (add_meta x0 x1 x2 x3)).
Proof. intros. unfold add_meta. lows. Qed.
#[export] Hint Resolve low_add_meta : low.
Lemma low_shift_metadata : forall x0 x1 x2 x3, low (shift_metadata x0 x1 x2 x3).
Proof. intros. unfold shift_metadata. lows. Qed.
#[export] Hint Resolve low_shift_metadata : low.
Lemma low_del_meta_loop : forall x0 x1 x2, low (del_meta_loop x0 x1 x2).
Proof. intros x0 x1 x2. intros. gens x1. induction x1; intros; cbn [del_meta_loop]; lows. Qed.
#[export] Hint Resolve low_del_meta_loop : low.
Lemma low_del_meta : forall x0 x1, low (del_meta x0 x1).
Proof. intros. unfold del_meta. lows. Qed.
#[export] Hint Resolve low_del_meta : low.
Lemma low_meta_read : forall x0 x1 x2 x3, low (meta_read x0 x1 x2 x3).
Proof. intros. unfold meta_read. lows. Qed.
#[export] Hint Resolve low_meta_read : low.
Lemma low_meta_write : forall x0 x1 x2 x3, low (meta_write x0 x1 x2 x3).
Proof. intros. unfold meta_write. lows. Qed.
#[export] Hint Resolve low_meta_write : low.
Lemma low_get_part : forall x0 x1, low (get_part x0 x1).
Proof. intros. unfold get_part. lows. Qed.
#[export] Hint Resolve low_get_part : low.
Lemma low_add_part_loop : forall x0 x1, low (snd (add_part_loop x0 x1)).
Proof. intros x0 x1. intros. gens x1. induction x1; intros; cbn [add_part_loop]; lows. Qed.
#[export] Hint Resolve low_add_part_loop : low.
Lemma low_add_part : forall x0 x1, low (snd (add_part x0 x1)).
Proof. intros. unfold add_part. lows. Qed.
#[export] Hint Resolve low_add_part : low.
Lemma low_del_part : forall x0 x1, low (del_part x0 x1).
Proof. intros. unfold del_part. lows. Qed.
#[export] Hint Resolve low_del_part : low.
Lemma low_valid_header : forall x0, low (valid_header x0).
Proof. intros. unfold valid_header. lows. Qed.
#[export] Hint Resolve low_valid_header : low.
Lemma low_copyz_signature : forall x0 x1, low (snd (copyz_signature x0 x1)).
Proof. intros. unfold copyz_signature. lows. Qed.
#[export] Hint Resolve low_copyz_signature : low.
Lemma low_add_transport_meta : forall x0 x1 x2 x3, low (snd (add_transport_meta x0 x1 x2 x3)).
Proof. intros. unfold add_transport_meta. lows. Qed.
#[export] Hint Resolve low_add_transport_meta : low.
Lemma low_hash_init : forall x0, low (hash_init x0).
Proof. intros. unfold hash_init. lows. Qed.
#[export] Hint Resolve low_hash_init : low.
Lemma low_hash_final : forall x0 x1 x2, low (hash_final x0 x1 x2).
Proof. intros. unfold hash_final. lows. Qed.
#[export] Hint Resolve low_hash_final : low.
(* callbacks *)
Definition low_io {S} (d : io S) : Prop := (forall s o b, low (io_wr d s o b)) /\ (forall s o n, low (io_rd d s o n)).
Definition low_rd (rd : rdfn) : Prop := forall o n, low (rd o n).
Definition low_fn {A B} (f : A -> res B) : Prop := forall a, low (f a).
Definition low_fn2 {A B C} (f : A -> B -> res C) : Prop := forall a b, low (f a b).
Definition low_sg {K} (sg : sigscheme K) : Prop :=
  (forall s h k key, low (sg_verify sg s h k key)) /\ (forall h k key, low (sg_sign sg h k key)).
Lemma low_io_wr : forall S (d : io S) s o b, low_io d -> low (io_wr d s o b). Proof. intros S d s o b [H _]. apply H. Qed.
Lemma low_io_rd : forall S (d : io S) s o n, low_io d -> low (io_rd d s o n). Proof. intros S d s o b [_ H]. apply H. Qed.
Lemma low_rd_rd : forall rd o n, low_rd rd -> low (rd o n). Proof. intros rd o n H. apply H. Qed.
Lemma low_fn_fn : forall A B (f : A -> res B) a, low_fn f -> low (f a). Proof. intros A B f a H. apply H. Qed.
Lemma low_fn2_fn2 : forall A B C (f : A -> B -> res C) a b, low_fn2 f -> low (f a b). Proof. intros A B C f a b H. apply H. Qed.
Lemma low_sg_verify : forall K (sg : sigscheme K) s h k key, low_sg sg -> low (sg_verify sg s h k key). Proof. intros K sg s h k key [H _]. apply H. Qed.
Lemma low_sg_sign : forall K (sg : sigscheme K) h k key, low_sg sg -> low (sg_sign sg h k key). Proof. intros K sg h k key [_ H]. apply H. Qed.
#[export] Hint Resolve low_io_wr low_io_rd low_sg_verify low_sg_sign : low.
#[export] Hint Extern 2 (low (?f _ _)) => (is_var f; solve [apply low_rd_rd; assumption | apply low_fn2_fn2; assumption]) : low.
#[export] Hint Extern 2 (low (?f _)) => (is_var f; solve [apply low_fn_fn; assumption]) : low.
Lemma low_compute_size_loop : forall x0 x1 x2 x3, low (compute_size_loop x0 x1 x2 x3).
Proof. intros x0 x1 x2 x3. intros. gens x0. induction x0; intros; cbn [compute_size_loop]; lows. Qed.
#[export] Hint Resolve low_compute_size_loop : low.
Lemma low_merkle_compute_size : forall x0, low (merkle_compute_size x0).
Proof. intros. unfold merkle_compute_size. lows. Qed.
#[export] Hint Resolve low_merkle_compute_size : low.
Lemma low_level_loop : forall x0 x1 x2 x3 x4, low (snd (level_loop x0 x1 x2 x3 x4)).
Proof. intros x0 x1 x2 x3 x4. intros. gens x0. induction x0; intros; cbn [level_loop]; lows. Qed.
#[export] Hint Resolve low_level_loop : low.
Lemma low_zero_fill : forall (S : Type) x0 (x1 : io S) x2 x3 x4, low_io x1 -> low (zero_fill x0 x1 x2 x3 x4).
Proof. intros S x0 x1 x2 x3 x4. intros. gens x0. induction x0; intros; cbn [zero_fill]; lows. Qed.
#[export] Hint Resolve low_zero_fill : low.
Lemma low_merkle_init : forall (S : Type) (x0 : io S) x1 x2 x3 x4 x5, low_io x0 -> low (snd (merkle_init x0 x1 x2 x3 x4 x5)).
Proof. intros. unfold merkle_init. lows. Qed.
#[export] Hint Resolve low_merkle_init : low.
Lemma low_write_loop : forall (S : Type) x0 (x1 : io S) x2 x3 x4 x5, low_io x1 -> low (write_loop x0 x1 x2 x3 x4 x5).
Proof. intros S x0 x1 x2 x3 x4 x5. intros. gens x2. induction x2; intros; cbn [write_loop]; lows. Qed.
#[export] Hint Resolve low_write_loop : low.
Lemma low_merkle_write_chunk : forall (S : Type) x0 (x1 : io S) x2 x3 x4, low_io x1 -> low (merkle_write_chunk x0 x1 x2 x3 x4).
Proof. intros. unfold merkle_write_chunk. lows. Qed.
#[export] Hint Resolve low_merkle_write_chunk : low.
Lemma low_read_pieces : forall (S : Type) (x0 : io S) x1 x2 x3 x4, low_io x0 -> low (read_pieces x0 x1 x2 x3 x4).
Proof. intros S x0 x1 x2 x3 x4. intros. gens x1. induction x1; intros; cbn [read_pieces]; lows. Qed.
#[export] Hint Resolve low_read_pieces : low.
Lemma low_finish_level : forall (S : Type) x0 (x1 : io S) x2 x3 x4 x5 x6, low_io x1 -> low (finish_level x0 x1 x2 x3 x4 x5 x6).
Proof. intros S x0 x1 x2 x3 x4 x5 x6. intros. gens x2. induction x2; intros; cbn [finish_level]; lows. Qed.
#[export] Hint Resolve low_finish_level : low.
Lemma low_finish_levels : forall (S : Type) x0 (x1 : io S) x2 x3 x4 x5, low_io x1 -> low (finish_levels x0 x1 x2 x3 x4 x5).
Proof. intros S x0 x1 x2 x3 x4 x5. intros. gens x2. induction x2; intros; cbn [finish_levels]; lows. Qed.
#[export] Hint Resolve low_finish_levels : low.
Lemma low_merkle_finish : forall (S : Type) x0 (x1 : io S) x2 x3, low_io x1 -> low (merkle_finish x0 x1 x2 x3).
Proof. intros. unfold merkle_finish. lows. Qed.
#[export] Hint Resolve low_merkle_finish : low.
Lemma low_write_chunks : forall (S : Type) x0 (x1 : io S) x2 x3 x4, low_io x1 -> low (write_chunks x0 x1 x2 x3 x4).
Proof. intros S x0 x1 x2 x3 x4. intros. gens x4. induction x4; intros; cbn [write_chunks]; lows. Qed.
#[export] Hint Resolve low_write_chunks : low.
Lemma low_file_rd : forall f, low_rd (file_rd f).
Proof. intros f o n. unfold file_rd. lows. Qed.
Lemma low_verify_io : forall rd, low_rd rd -> low_io (verify_io rd).
Proof. intros rd H. split; intros; cbn [verify_io io_wr io_rd]; lows. Qed.
#[export] Hint Resolve low_file_rd low_verify_io : low.
Lemma low_compute_header_hash : forall x0 x1 x2, low (compute_header_hash x0 x1 x2).
Proof. intros. unfold compute_header_hash. lows. Qed.
#[export] Hint Resolve low_compute_header_hash : low.
Lemma low_hash_part_loop : forall x0 x1 x2 x3 x4, low_rd x0 -> low (hash_part_loop x0 x1 x2 x3 x4).
Proof. intros x0 x1 x2 x3 x4. intros. gens x1. induction x1; intros; cbn [hash_part_loop]; lows. Qed.
#[export] Hint Resolve low_hash_part_loop : low.
Lemma low_hash_parts_loop : forall x0 x1 x2 x3, low_rd x0 -> low (hash_parts_loop x0 x1 x2 x3).
Proof. intros x0 x1 x2 x3. intros. gens x3. induction x3; intros; cbn [hash_parts_loop]; lows. Qed.
#[export] Hint Resolve low_hash_parts_loop : low.
Lemma low_compute_payload_hash : forall x0 x1 x2 x3 x4, low_rd x2 -> low (compute_payload_hash x0 x1 x2 x3 x4).
Proof. intros. unfold compute_payload_hash. lows. Qed.
#[export] Hint Resolve low_compute_payload_hash : low.
Lemma low_verify_data_loop : forall x0 x1 x2 x3 x4 x5, low_rd x1 -> low (verify_data_loop x0 x1 x2 x3 x4 x5).
Proof. intros x0 x1 x2 x3 x4 x5. intros. gens x2. induction x2; intros; cbn [verify_data_loop]; lows. Qed.
#[export] Hint Resolve low_verify_data_loop : low.
Lemma low_verify_merkle_tree : forall x0 x1 x2 x3 x4 x5 x6, low_rd x1 -> low (verify_merkle_tree x0 x1 x2 x3 x4 x5 x6).
Proof. intros. unfold verify_merkle_tree. lows. Qed.
#[export] Hint Resolve low_verify_merkle_tree : low.
Lemma low_verify_trees_loop : forall x0 x1 x2 x3 x4, low_rd x2 -> low (verify_trees_loop x0 x1 x2 x3 x4).
Proof. intros x0 x1 x2 x3 x4. intros. gens x4. induction x4; intros; cbn [verify_trees_loop]; lows. Qed.
#[export] Hint Resolve low_verify_trees_loop : low.
Lemma low_verify_payload : forall x0 x1 x2 x3, low_rd x2 -> low (verify_payload x0 x1 x2 x3).
Proof. intros. unfold verify_payload. lows. Qed.
#[export] Hint Resolve low_verify_payload : low.
Lemma low_pkg_update_hash : forall x0 x1 x2, low (snd (pkg_update_hash x0 x1 x2)).
Proof. intros. unfold pkg_update_hash. lows. Qed.
#[export] Hint Resolve low_pkg_update_hash : low.
Lemma low_pkg_write_raw_signature : forall x0 x1, low (pkg_write_raw_signature x0 x1).
Proof. intros. unfold pkg_write_raw_signature. lows. Qed.
#[export] Hint Resolve low_pkg_write_raw_signature : low.
Lemma low_pkg_verify : forall (K : Type) x0 (x1 : sigscheme K) x2 x3 x4, low_sg x1 -> low (pkg_verify x0 x1 x2 x3 x4).
Proof. intros. unfold pkg_verify. lows. Qed.
#[export] Hint Resolve low_pkg_verify : low.
Lemma low_pkg_sign : forall (K : Type) x0 (x1 : sigscheme K) x2 x3 x4, low_sg x1 -> low (snd (pkg_sign x0 x1 x2 x3 x4)).
Proof. intros. unfold pkg_sign. lows. Qed.
#[export] Hint Resolve low_pkg_sign : low.
Lemma low_sha256_loop : forall x0 x1 x2 x3 x4, low (sha256_loop x0 x1 x2 x3 x4).
Proof. intros x0 x1 x2 x3 x4. intros. gens x1. induction x1; intros; cbn [sha256_loop]; lows. Qed.
#[export] Hint Resolve low_sha256_loop : low.
Lemma low_pkg_part_sha256 : forall x0 x1 x2 x3, low (pkg_part_sha256 x0 x1 x2 x3).
Proof. intros. unfold pkg_part_sha256. lows. Qed.
#[export] Hint Resolve low_pkg_part_sha256 : low.
