(* CrcProofs.v *)
From Coq Require Import String.
From Verif Require Import BaseLemmas HeaderModel HeaderSpec CrcModel CrcSpec.

Lemma shift1_alt r : shift1 r = Z.lxor (Z.shiftr r 1) (if Z.testbit r 0 then POLY else 0).
Proof.
  unfold shift1. rewrite Z.bit0_odd. rewrite Z.shiftr_div_pow2 by lia. change (2 ^ 1) with 2.
  destruct (Z.odd r); [reflexivity|]. now rewrite Z.lxor_0_r.
Qed.
Lemma shift1_lxor a b : shift1 (Z.lxor a b) = Z.lxor (shift1 a) (shift1 b).
Proof.
  rewrite !shift1_alt, Z.shiftr_lxor, Z.lxor_spec.
  rewrite !Z.lxor_assoc. f_equal. rewrite <- !Z.lxor_assoc.
  rewrite (Z.lxor_comm _ (Z.shiftr b 1)). rewrite !Z.lxor_assoc. f_equal.
  destruct (Z.testbit a 0), (Z.testbit b 0); reflexivity.
Qed.
Lemma shift_n_lxor n : forall a b, shift_n n (Z.lxor a b) = Z.lxor (shift_n n a) (shift_n n b).
Proof. induction n as [|n IH]; intros; cbn [shift_n]; [reflexivity|]. now rewrite shift1_lxor, IH. Qed.
Lemma shift_n_add m n r : shift_n (m + n) r = shift_n n (shift_n m r).
Proof. revert r; induction m as [|m IH]; intros; cbn [Nat.add shift_n]; auto. Qed.
Lemma shift_n_shl n r : 0 <= r -> shift_n n (Z.shiftl r (Z.of_nat n)) = r.
Proof.
  intros Hr. revert r Hr. induction n as [|n IH]; intros r Hr.
  - cbn. reflexivity.
  - cbn [shift_n]. replace (Z.of_nat (S n)) with (Z.of_nat n + 1) by lia.
    rewrite <- Z.shiftl_shiftl by lia.
    replace (shift1 (Z.shiftl (Z.shiftl r (Z.of_nat n)) 1)) with (Z.shiftl r (Z.of_nat n)); [now apply IH|].
    rewrite shift1_alt. rewrite Z.shiftr_shiftl_l by lia. rewrite Z.sub_diag, Z.shiftl_0_r.
    replace (Z.testbit (Z.shiftl (Z.shiftl r (Z.of_nat n)) 1) 0) with false; [now rewrite Z.lxor_0_r|].
    symmetry. rewrite Z.shiftl_spec by lia. apply Z.testbit_neg_r. lia.
Qed.

Definition w32 (r : Z) : Prop := 0 <= r < 2^32.
Lemma lxor_lt n a b : 0 <= n -> 0 <= a < 2^n -> 0 <= b < 2^n -> 0 <= Z.lxor a b < 2^n.
Proof.
  intros Hn Ha Hb. split; [apply Z.lxor_nonneg; lia|].
  destruct (Z.eq_dec (Z.lxor a b) 0) as [->|Hz]; [lia|].
  assert (Hpos : 0 < Z.lxor a b) by (assert (0 <= Z.lxor a b) by (apply Z.lxor_nonneg; lia); lia).
  apply Z.log2_lt_pow2; auto.
  eapply Z.le_lt_trans; [apply Z.log2_lxor; lia|].
  assert (G : forall x, 0 <= x < 2^n -> Z.log2 x < n \/ (x = 0)).
  { intros x Hx. destruct (Z.eq_dec x 0); [now right|left]. apply Z.log2_lt_pow2; lia. }
  destruct (Z.eq_dec n 0) as [->|Hn0].
  - change (2^0) with 1 in *. assert (a = 0) by lia. assert (b = 0) by lia. subst. cbn in Hpos. lia.
  - destruct (G a Ha) as [?| ->], (G b Hb) as [?| ->]; cbn [Z.log2]; lia.
Qed.
Lemma shift1_w32 r : w32 r -> w32 (shift1 r).
Proof.
  intros [H1 H2]. rewrite shift1_alt. apply (lxor_lt 32); try lia.
  - rewrite Z.shiftr_div_pow2 by lia. change (2^1) with 2. lia.
  - destruct (Z.testbit r 0); unfold POLY; lia.
Qed.
Lemma shift_n_w32 n r : w32 r -> w32 (shift_n n r).
Proof. revert r; induction n; cbn; auto using shift1_w32. Qed.
Lemma feed_w32 r b : w32 r -> byte_ok b -> w32 (feed r b).
Proof. intros Hr Hb. apply shift_n_w32. apply (lxor_lt 32); unfold w32, byte_ok in *; lia. Qed.
Lemma crc_spec_w32 m : forall r, w32 r -> bytes_ok m -> w32 (crc_spec r m).
Proof.
  induction m as [|b m IH]; intros r Hr Hm; [exact Hr|].
  apply bytes_ok_cons in Hm as [Hb Hm]. cbn [crc_spec fold_left]. apply IH; auto using feed_w32.
Qed.

(* the table is the 8-step image of each byte: 256 cases by computation *)
Lemma table_ok : forallb (fun n => znth 0 (Z.of_nat n) crc_table =? shift_n 8 (Z.of_nat n)) (seq 0 256) = true.
Proof. vm_compute. reflexivity. Qed.
Lemma table_at i : 0 <= i < 256 -> znth 0 i crc_table = shift_n 8 i.
Proof.
  intros Hi. pose proof table_ok as H. rewrite forallb_forall in H.
  specialize (H (Z.to_nat i)). rewrite Z2Nat.id in H by lia. apply Z.eqb_eq, H. apply in_seq. lia.
Qed.

Lemma split_low8 x : 0 <= x -> x = Z.lxor (Z.land x 255) (Z.shiftl (Z.shiftr x 8) 8).
Proof.
  intros Hx. apply Z.bits_inj'. intros k Hk. rewrite Z.lxor_spec, Z.land_spec, Z.shiftl_spec by lia.
  change 255 with (Z.ones 8). destruct (Z.lt_ge_cases k 8).
  - rewrite Z.ones_spec_low, (Z.testbit_neg_r _ (k - 8)) by lia.
    now rewrite andb_true_r, xorb_false_r.
  - rewrite Z.ones_spec_high by lia. rewrite Z.shiftr_spec by lia.
    rewrite andb_false_r, xorb_false_l. f_equal. lia.
Qed.
Lemma land255_byte x : 0 <= Z.land x 255 < 256.
Proof. change 255 with (Z.ones 8). rewrite Z.land_ones by lia. change (2^8) with 256. lia. Qed.

Lemma crc_step_feed r b : w32 r -> byte_ok b -> crc_step r b = feed r b.
Proof.
  intros [Hr1 Hr2] [Hb1 Hb2]. unfold crc_step, feed.
  rewrite table_at by apply land255_byte.
  assert (Hx : 0 <= Z.lxor r b) by (apply Z.lxor_nonneg; lia).
  rewrite (split_low8 (Z.lxor r b) Hx) at 2. rewrite shift_n_lxor. f_equal.
  pose proof (shift_n_shl 8 (Z.shiftr (Z.lxor r b) 8)) as G. change (Z.of_nat 8) with 8 in G.
  rewrite G by (apply Z.shiftr_nonneg; lia).
  rewrite Z.shiftr_lxor. replace (Z.shiftr b 8) with 0; [now rewrite Z.lxor_0_r|].
  symmetry. rewrite Z.shiftr_div_pow2 by lia. change (2^8) with 256. lia.
Qed.
Lemma crc32_spec m : forall r, w32 r -> bytes_ok m -> crc32 r m = crc_spec r m.
Proof.
  induction m as [|b m IH]; intros r Hr Hm; [reflexivity|].
  apply bytes_ok_cons in Hm as [Hb Hm]. cbn [crc32 crc_spec fold_left].
  rewrite crc_step_feed by auto. apply IH; auto using feed_w32.
Qed.

(* ---- composition ---- *)
Lemma crc32_app r a b : crc32 r (a ++ b) = crc32 (crc32 r a) b.
Proof. apply fold_left_app. Qed.
Lemma crc32_w32 r m : w32 r -> bytes_ok m -> w32 (crc32 r m).
Proof. intros. rewrite crc32_spec by auto. now apply crc_spec_w32. Qed.

(* ---- injectivity ---- *)
Lemma shift1_inj a b : w32 a -> w32 b -> shift1 a = shift1 b -> a = b.
Proof.
  intros Ha Hb E. apply Z.lxor_eq.
  assert (H0 : shift1 (Z.lxor a b) = 0) by (rewrite shift1_lxor, E; apply Z.lxor_nilpotent).
  assert (Hd : 0 <= Z.lxor a b < 2^32) by (apply (lxor_lt 32); unfold w32 in *; lia).
  set (d := Z.lxor a b) in *. unfold shift1 in H0. destruct (Z.odd d) eqn:Ho.
  - apply Z.lxor_eq in H0. unfold POLY in H0. lia.
  - assert (d = 2 * (d / 2)). { pose proof (Z.div2_odd d) as G. rewrite Ho in G. rewrite Z.div2_div in G. cbn [Z.b2z] in G. lia. }
    lia.
Qed.
Lemma shift_n_inj n : forall a b, w32 a -> w32 b -> shift_n n a = shift_n n b -> a = b.
Proof.
  induction n as [|n IH]; intros a b Ha Hb E; cbn [shift_n] in E; [auto|].
  apply IH in E; auto using shift1_w32. now apply shift1_inj.
Qed.
Lemma lxor_cancel_r a b c : Z.lxor a c = Z.lxor b c -> a = b.
Proof.
  intros E. rewrite <- (Z.lxor_0_r a), <- (Z.lxor_nilpotent c), <- Z.lxor_assoc, E.
  now rewrite Z.lxor_assoc, Z.lxor_nilpotent, Z.lxor_0_r.
Qed.
Lemma feed_inj r1 r2 b : w32 r1 -> w32 r2 -> byte_ok b -> feed r1 b = feed r2 b -> r1 = r2.
Proof.
  intros H1 H2 Hb E. unfold feed in E. apply shift_n_inj in E.
  - now apply lxor_cancel_r in E.
  - apply (lxor_lt 32); unfold w32, byte_ok in *; lia.
  - apply (lxor_lt 32); unfold w32, byte_ok in *; lia.
Qed.
Lemma crc32_inj_init m : forall r1 r2, w32 r1 -> w32 r2 -> bytes_ok m -> crc32 r1 m = crc32 r2 m -> r1 = r2.
Proof.
  induction m as [|b m IH]; intros r1 r2 H1 H2 Hm E; [exact E|].
  apply bytes_ok_cons in Hm as [Hb Hm]. cbn [crc32 fold_left] in E.
  rewrite !crc_step_feed in E by auto. apply IH in E; auto using feed_w32.
  now apply feed_inj in E.
Qed.

(* a window of up to four bytes acts as one 32-bit word *)
Lemma crc_word w : forall r, zlen w <= 4 -> w32 r -> bytes_ok w ->
  crc_spec r w = shift_n (8 * length w) (Z.lxor r (unle w)).
Proof.
  induction w as [|b w IH]; intros r Hl Hr Hw.
  - cbn. now rewrite Z.lxor_0_r.
  - apply bytes_ok_cons in Hw as [Hb Hw]. rewrite zlen_cons in Hl.
    change (crc_spec r (b :: w)) with (crc_spec (feed r b) w). rewrite (IH (feed r b)); auto using feed_w32; [|lia].
    replace (8 * length (b :: w))%nat with (8 + 8 * length w)%nat by (cbn [length]; lia).
    rewrite shift_n_add. f_equal. unfold feed.
    cbn [unle]. pose proof (unle_range w Hw) as Hu.
    replace (b + 256 * unle w) with (Z.lxor b (Z.shiftl (unle w) 8)).
    + rewrite <- Z.lxor_assoc. rewrite (shift_n_lxor 8 (Z.lxor r b)). f_equal.
      pose proof (shift_n_shl 8 (unle w)) as G. change (Z.of_nat 8) with 8 in G. symmetry. apply G. lia.
    + rewrite Z.add_nocarry_lxor.
      * rewrite Z.shiftl_mul_pow2 by lia; change (2^8) with 256. f_equal. lia.
      * rewrite (Z.mul_comm 256). apply Z.bits_inj'. intros k Hk. rewrite Z.land_spec, Z.bits_0.
        change 256 with (2^8). destruct (Z.lt_ge_cases k 8).
        -- rewrite Z.mul_pow2_bits_low by lia. apply andb_false_r.
        -- destruct (Z.eq_dec b 0) as [->|]; [now rewrite Z.bits_0|].
           rewrite (Z.bits_above_log2 b k); [reflexivity| unfold byte_ok in Hb; lia|].
           apply Z.lt_le_trans with 8; [|lia]. apply Z.log2_lt_pow2; unfold byte_ok in Hb; lia.
Qed.
Lemma unle_inj a b : bytes_ok a -> bytes_ok b -> length a = length b -> unle a = unle b -> a = b.
Proof. intros Ha Hb Hl E. rewrite <- (le_unle a Ha), <- (le_unle b Hb). now rewrite Hl, E. Qed.

Lemma id_window p w1 w2 s :
  bytes_ok p -> bytes_ok w1 -> bytes_ok w2 -> bytes_ok s ->
  length w1 = length w2 -> (length w1 <= 4)%nat ->
  bpak_id (p ++ w1 ++ s) = bpak_id (p ++ w2 ++ s) -> w1 = w2.
Proof.
  intros Hp H1 H2 Hs Hl H4 E. unfold bpak_id in E. rewrite !crc32_app in E.
  assert (W0 : w32 0) by (unfold w32; lia).
  assert (Wp : w32 (crc32 0 p)) by now apply crc32_w32.
  apply crc32_inj_init in E; auto using crc32_w32.
  set (c := crc32 0 p) in *. clearbody c.
  rewrite !crc32_spec in E by auto.
  rewrite !crc_word in E by (auto; unfold zlen; lia). rewrite <- Hl in E.
  assert (R : forall w, bytes_ok w -> (length w <= 4)%nat -> w32 (Z.lxor c (unle w))).
  { intros w Hw Hlw. apply (lxor_lt 32); [lia|exact Wp|].
    pose proof (unle_range w Hw) as [G1 G2]. split; [lia|]. eapply Z.lt_le_trans; [exact G2|].
    change (2^32) with (256^4). apply Z.pow_le_mono_r; unfold zlen; lia. }
  apply shift_n_inj in E; [| apply R; auto; lia | apply R; auto; lia].
  rewrite (Z.lxor_comm _ (unle w1)), (Z.lxor_comm _ (unle w2)) in E.
  apply lxor_cancel_r in E. now apply unle_inj.
Qed.

(* ---- hash-tree ids ---- *)
Lemma bytes_of_ok s : bytes_ok (bytes_of s).
Proof.
  unfold bytes_of. apply Forall_map. apply Forall_forall. intros c _. red.
  pose proof (Ascii.N_ascii_bounded c). lia.
Qed.
Lemma bytes_of_append a b : bytes_of (a ++ b) = bytes_of a ++ bytes_of b.
Proof. unfold bytes_of. induction a as [|c a IH]; cbn; [reflexivity|]. now f_equal. Qed.
Lemma hash_tree_id_name name :
  part_name_to_hash_tree_id name = bpak_id (name ++ bytes_of "-hash-tree").
Proof. unfold part_name_to_hash_tree_id, part_id_to_hash_tree_id, bpak_id. now rewrite crc32_app. Qed.
Lemma id_extend name suffix : bpak_id (name ++ suffix) = crc32 (bpak_id name) suffix.
Proof. apply crc32_app. Qed.
Lemma hash_tree_ids name :
  part_name_to_hash_tree_id name = bpak_id (name ++ bytes_of "-hash-tree") /\
  part_id_to_hash_tree_id (bpak_id name) = bpak_id (name ++ bytes_of "-hash-tree") /\
  (forall suffix, bpak_id (name ++ suffix) = crc32 (bpak_id name) suffix).
Proof.
  split; [apply hash_tree_id_name|]. split; [|apply id_extend].
  rewrite id_extend. unfold part_id_to_hash_tree_id. reflexivity.
Qed.
Lemma hash_tree_id_inj a b : w32 a -> w32 b ->
  part_id_to_hash_tree_id a = part_id_to_hash_tree_id b -> a = b.
Proof. intros Ha Hb. apply crc32_inj_init; auto using bytes_of_ok. Qed.
Lemma hash_tree_inverse h p :
  Forall wf_part (h_parts h) -> In p (h_parts h) ->
  hash_tree_id_to_part_id h (part_id_to_hash_tree_id (p_id p)) = p_id p.
Proof.
  unfold hash_tree_id_to_part_id. intros W Hin.
  assert (Wp : w32 (p_id p)). { rewrite Forall_forall in W. destruct (W p Hin) as [? _]. exact H. }
  revert Hin. induction W as [|q l Wq W IH]; intros Hin; [destruct Hin|].
  cbn [hash_tree_id_to_part_id_loop].
  destruct (Z.eqb_spec (part_id_to_hash_tree_id (p_id q)) (part_id_to_hash_tree_id (p_id p))) as [E|E].
  - apply hash_tree_id_inj in E; auto. destruct Wq as [? _]. exact H.
  - destruct Hin as [->|Hin]; [contradiction|]. auto.
Qed.
Lemma hash_tree_none h id :
  (forall p, In p (h_parts h) -> part_id_to_hash_tree_id (p_id p) <> id) ->
  hash_tree_id_to_part_id h id = 0.
Proof.
  intros H. unfold hash_tree_id_to_part_id. induction (h_parts h) as [|q l IH]; [reflexivity|].
  cbn [hash_tree_id_to_part_id_loop]. destruct (Z.eqb_spec (part_id_to_hash_tree_id (p_id q)) id) as [E|E].
  - exfalso. apply (H q); [now left|exact E].
  - apply IH. intros p Hp. apply H. now right.
Qed.

Lemma well_known_ids :
  id_of "bpak-transport" = ID_BPAK_TRANSPORT /\ id_of "merkle-salt" = ID_MERKLE_SALT /\
  id_of "merkle-root-hash" = ID_MERKLE_ROOT_HASH /\ id_of "keystore-provider-id" = ID_KEYSTORE_PROVIDER_ID /\
  id_of "bpak-version" = ID_BPAK_VERSION /\ id_of "pb-load-addr" = ID_PB_LOAD_ADDR /\
  id_of "bpak-package" = ID_BPAK_PACKAGE /\ id_of "bpak-key-id" = ID_BPAK_KEY_ID /\
  id_of "bpak-key-store" = ID_BPAK_KEY_STORE /\ id_of "bsdiff" = ID_BSDIFF /\
  id_of "bsdiff-lzma" = ID_BSDIFF_LZMA /\ id_of "bsdiff-no-comp" = ID_BSDIFF_NO_COMP /\
  id_of "bspatch" = ID_BSPATCH /\ id_of "bspatch-lzma" = ID_BSPATCH_LZMA /\
  id_of "bspatch-no-comp" = ID_BSPATCH_NO_COMP /\ id_of "merkle-generate" = ID_MERKLE_GENERATE /\
  id_of "remove-data" = ID_REMOVE_DATA /\
  (forall id, id_to_string id <> ""%string -> id_of (id_to_string id) = id).
Proof.
  repeat split; try (vm_compute; reflexivity).
  intros id. unfold id_to_string.
  repeat match goal with |- context [if ?a =? ?b then _ else _] =>
    destruct (Z.eqb_spec a b); [subst; intros _; vm_compute; reflexivity|] end.
  congruence.
Qed.
