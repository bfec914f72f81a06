(* MerkleChunks.v -- bpak_merkle_write_chunk does not depend on the chunking,
   and what a complete sequence of writes does *)
From Verif Require Import BaseLemmas HeaderModel HashModel MerkleModel MerkleSpec MerkleSizes.

Definition blk_ok (c : mctx) : Prop := 0 < mk_block_counter c <= 4096.
Lemma blk_ok_done c dg b : blk_ok (mk_block_done c dg b).
Proof. unfold blk_ok, mk_block_done, MBLOCK. cbn. lia. Qed.

Lemma length_zdrop {A} n (l : list A) : length (zdrop n l) = (length l - Z.to_nat n)%nat.
Proof. apply skipn_length. Qed.

Section Chunks.
Context {S : Type} (sha : hashfn) (d : io S).

(* one step of the loop *)
Definition step_running (c : mctx) : bytes := if mk_block_counter c =? 4096 then mk_salt c else mk_running c.
Lemma write_loop_nil fuel c s : write_loop sha d fuel c s [] = Ok (c, s).
Proof. destruct fuel; reflexivity. Qed.
Lemma write_loop_step fuel c s data : data <> [] ->
  write_loop sha d (Datatypes.S fuel) c s data =
    let n := Z.min (mk_block_counter c) (zlen data) in
    if mk_block_counter c - n =? 0 then
      let digest := sha HASH_SHA256 (step_running c ++ ztake n data) in
      do s' <- io_wr d s (mk_offset c + (mk_chunk_counter c + nth 0 (mk_level_offset c) 0)) digest;
      if mk_input_length c =? MBLOCK then Ok (mk_block_done c digest true, s')
      else write_loop sha d fuel (mk_block_done c digest (mk_finished c)) s' (zdrop n data)
    else write_loop sha d fuel (mk_progress c (step_running c ++ ztake n data) (mk_block_counter c - n)) s (zdrop n data).
Proof.
  intros Hd. cbn [write_loop]. destruct (Z.eqb_spec (zlen data) 0) as [E|E]; [|reflexivity].
  apply zlen_0_nil in E. contradiction.
Qed.
Lemma zlen_pos {A} (l : list A) : l <> [] -> 0 < zlen l.
Proof. destruct l; [congruence|]. intros _. rewrite zlen_cons. pose proof (zlen_nonneg l). lia. Qed.
Lemma bind_ext {A B} (x : res A) (f g : A -> res B) : (forall a, f a = g a) -> bind x f = bind x g.
Proof. intros H. destruct x; cbn; auto. Qed.
Lemma bind_assoc {A B C} (x : res A) (f : A -> res B) (g : B -> res C) :
  bind (bind x f) g = bind x (fun a => bind (f a) g).
Proof. destruct x; reflexivity. Qed.

Lemma write_loop_fuel : forall f1 f2 data c s, blk_ok c ->
  (length data <= f1)%nat -> (length data <= f2)%nat ->
  write_loop sha d f1 c s data = write_loop sha d f2 c s data.
Proof.
  induction f1 as [|f1 IH]; intros f2 data c s Hc H1 H2.
  - destruct data; [|cbn in H1; lia]. now rewrite !write_loop_nil.
  - destruct data as [|b data]; [now rewrite !write_loop_nil|].
    destruct f2 as [|f2]; [cbn in H2; lia|]. rewrite !write_loop_step by discriminate. cbv zeta.
    set (n := Z.min (mk_block_counter c) (zlen (b :: data))).
    assert (Hn : 0 < n) by (unfold n, blk_ok, zlen in *; cbn [length]; lia).
    assert (Hl : (length (zdrop n (b :: data)) < length (b :: data))%nat)
      by (rewrite length_zdrop; cbn [length]; lia).
    destruct (Z.eqb_spec (mk_block_counter c - n) 0).
    + apply bind_ext. intros s'. destruct (mk_input_length c =? MBLOCK); [reflexivity|].
      apply IH; [apply blk_ok_done|lia..].
    + apply IH; [|lia..]. unfold blk_ok in *. cbn. lia.
Qed.

(* processing a++b is processing a then b *)
Lemma write_loop_app : forall m a b c s, (length a <= m)%nat -> blk_ok c ->
  (mk_input_length c = 4096 -> zlen (a ++ b) <= mk_block_counter c) ->
  write_loop sha d (length (a ++ b)) c s (a ++ b) =
  do x <- write_loop sha d (length a) c s a; let '(c', s') := x in write_loop sha d (length b) c' s' b.
Proof.
  induction m as [|m IH]; intros a b c s Hm Hc Hin.
  - destruct a; [|cbn in Hm; lia]. cbn [app length]. rewrite write_loop_nil. reflexivity.
  - destruct a as [|x a]; [cbn [app length]; rewrite write_loop_nil; reflexivity|].
    cbn [app length]. change (x :: a ++ b) with ((x :: a) ++ b).
    set (a' := x :: a) in *. assert (Ha' : a' <> []) by discriminate.
    assert (Hab : a' ++ b <> []) by discriminate.
    rewrite !write_loop_step by auto. cbv zeta. zl.
    pose proof (zlen_pos _ Ha') as Hla. pose proof (zlen_nonneg b) as Hlb.
    assert (Hmax : (length (a ++ b) = length a + length b)%nat) by apply app_length.
    assert (La : length a' = Datatypes.S (length a)) by reflexivity.
    destruct (Z_le_gt_dec (mk_block_counter c) (zlen a')) as [Hle|Hgt].
    + (* the block ends inside a *)
      rewrite !Z.min_l by lia. rewrite Z.sub_diag, Z.eqb_refl.
      rewrite !ztake_app_l by lia. rewrite !zdrop_app_l by lia.
      rewrite bind_assoc. apply bind_ext. intros s'.
      unfold MBLOCK. destruct (Z.eqb_spec (mk_input_length c) 4096) as [Hi|Hi].
      * cbn [bind]. assert (b = []) as ->. { specialize (Hin Hi). apply zlen_0_nil. lia. }
        now rewrite write_loop_nil.
      * set (c' := mk_block_done _ _ _). assert (Hc' : blk_ok c') by apply blk_ok_done.
        set (a2 := zdrop (mk_block_counter c) a').
        assert (Hl2 : (length a2 <= length a)%nat).
        { unfold a2. rewrite length_zdrop. unfold blk_ok in Hc. lia. }
        rewrite (write_loop_fuel _ (length (a2 ++ b))) by (rewrite ?app_length; auto; lia).
        rewrite IH; auto; [|cbn [length] in Hm; lia|intros G; exfalso; now apply Hi].
        rewrite (write_loop_fuel (length a) (length a2)) by (auto; lia). reflexivity.
    + (* a ends inside the block *)
      rewrite (Z.min_r _ (zlen a')) by lia.
      destruct (Z.eqb_spec (mk_block_counter c - zlen a') 0); [lia|].
      rewrite (ztake_all _ a'), (zdrop_all _ a') by lia. rewrite write_loop_nil. cbn [bind].
      set (c1 := mk_progress c (step_running c ++ a') (mk_block_counter c - zlen a')).
      destruct b as [|y b].
      { rewrite write_loop_nil. zl. rewrite !app_nil_r, Z.min_r by lia.
        destruct (Z.eqb_spec (mk_block_counter c - (zlen a' + 0)) 0); [lia|].
        rewrite Z.add_0_r. rewrite ztake_all, zdrop_all, write_loop_nil by lia. reflexivity. }
      set (b' := y :: b) in *. assert (Hb' : b' <> []) by discriminate.
      assert (Lb : length b' = Datatypes.S (length b)) by reflexivity.
      rewrite Lb. rewrite write_loop_step by auto. cbv zeta.
      assert (Hrun : step_running c1 = step_running c ++ a').
      { unfold step_running at 1. cbn [c1 mk_progress mk_block_counter mk_running].
        destruct (Z.eqb_spec (mk_block_counter c - zlen a') 4096); [unfold blk_ok in Hc; lia|reflexivity]. }
      rewrite Hrun. cbn [c1 mk_progress mk_block_counter mk_offset mk_chunk_counter mk_level_offset mk_input_length mk_finished].
      set (nb := Z.min (mk_block_counter c - zlen a') (zlen b')).
      assert (Hn : Z.min (mk_block_counter c) (zlen a' + zlen b') = zlen a' + nb) by lia.
      rewrite Hn. rewrite ztake_app_r, zdrop_app_r by lia.
      replace (zlen a' + nb - zlen a') with nb by lia. rewrite app_assoc.
      replace (mk_block_counter c - (zlen a' + nb)) with (mk_block_counter c - zlen a' - nb) by lia.
      assert (Hnb : 0 < nb) by (pose proof (zlen_pos _ Hb'); lia).
      assert (Hlz : (length (zdrop nb b') <= length b)%nat) by (rewrite length_zdrop; lia).
      assert (Hfz : (length (zdrop nb b') <= length (a ++ b'))%nat) by (rewrite app_length; lia).
      destruct (Z.eqb_spec (mk_block_counter c - zlen a' - nb) 0) as [E0|E0].
      * apply bind_ext. intros s'. destruct (mk_input_length c =? MBLOCK); [reflexivity|].
        apply write_loop_fuel; auto. apply blk_ok_done.
      * apply write_loop_fuel; auto. unfold blk_ok in *. cbn [mk_progress mk_block_counter]. lia.
Qed.
End Chunks.

(* the constant part of a context *)
Definition same_setup (c c' : mctx) : Prop :=
  mk_level_length c' = mk_level_length c /\ mk_level_offset c' = mk_level_offset c /\
  mk_levels c' = mk_levels c /\ mk_input_length c' = mk_input_length c /\
  mk_tree_length c' = mk_tree_length c /\ mk_salt c' = mk_salt c /\ mk_offset c' = mk_offset c.
Lemma same_setup_refl c : same_setup c c.
Proof. unfold same_setup; auto 10. Qed.

Section Chunks2.
Context {S : Type} (sha : hashfn) (d : io S).
Lemma write_loop_inv : forall fuel data c s c' s', blk_ok c ->
  write_loop sha d fuel c s data = Ok (c', s') ->
  blk_ok c' /\ same_setup c c' /\
  (zlen data < mk_block_counter c -> mk_block_counter c' = mk_block_counter c - zlen data).
Proof.
  induction fuel as [|fuel IH]; intros data c s c' s' Hc H.
  - destruct data; cbn in H; [|discriminate]. injection H as <- <-. cbn.
    split; [auto|]. split; [apply same_setup_refl|]. lia.
  - destruct data as [|b data].
    + cbn in H. injection H as <- <-. split; [auto|]. split; [apply same_setup_refl|]. cbn. lia.
    + rewrite write_loop_step in H by discriminate. cbv zeta in H.
      pose proof (zlen_pos (b :: data) ltac:(discriminate)) as Hp.
      set (dt := b :: data) in *. unfold blk_ok in Hc.
      destruct (Z.eqb_spec (mk_block_counter c - Z.min (mk_block_counter c) (zlen dt)) 0).
      * destruct (io_wr d s _ _) as [s1| | |]; try discriminate. cbn [bind] in H.
        destruct (mk_input_length c =? MBLOCK).
        -- injection H as <- <-. split; [apply blk_ok_done|]. split; [exact (same_setup_refl c)|]. lia.
        -- apply IH in H; [|apply blk_ok_done]. destruct H as (H1 & H2 & _).
           split; [auto|]. split; [exact H2|]. lia.
      * apply IH in H; [|unfold blk_ok in *; cbn [mk_progress mk_block_counter]; lia]. destruct H as (H1 & H2 & H3).
        split; [auto|]. split; [exact H2|]. intros Hz. rewrite H3.
        -- cbn [mk_progress mk_block_counter]. rewrite zlen_zdrop. lia.
        -- cbn [mk_progress mk_block_counter]. rewrite zlen_zdrop. lia.
Qed.

(* any partition *)
Theorem write_chunks_concat : forall chunks c s, blk_ok c ->
  (mk_input_length c = 4096 -> zlen (concat chunks) <= mk_block_counter c) ->
  write_chunks sha d c s chunks = merkle_write_chunk sha d c s (concat chunks).
Proof.
  induction chunks as [|a r IH]; intros c s Hc Hin; cbn [write_chunks concat].
  - unfold merkle_write_chunk. now rewrite write_loop_nil.
  - unfold merkle_write_chunk. cbn [concat] in Hin.
    rewrite (write_loop_app sha d (length a)) by auto.
    destruct (write_loop sha d (length a) c s a) as [[c' s']| | |] eqn:E; cbn [bind]; auto.
    destruct (write_loop_inv _ _ _ _ _ _ Hc E) as (H1 & H2 & H3).
    apply IH; auto. intros Hi. assert (Hi' : mk_input_length c = 4096) by (unfold same_setup in H2; intuition congruence).
    specialize (Hin Hi'). rewrite zlen_app in Hin.
    pose proof (zlen_nonneg (concat r)). unfold blk_ok in H1.
    destruct (Z_lt_ge_dec (zlen a) (mk_block_counter c)); [rewrite H3 by lia; lia|lia].
Qed.

(* whole blocks: one store write per block *)
Fixpoint write_hashes (k : nat) (s : S) (salt : bytes) (pos : Z) (data : bytes) : res S :=
  match k with
  | O => Ok s
  | Datatypes.S k =>
      do s' <- io_wr d s pos (sha 1 (salt ++ ztake 4096 data));
      write_hashes k s' salt (pos + 32) (zdrop 4096 data)
  end.
Lemma write_blocks : forall k data c s,
  zlen data = 4096 * Z.of_nat k -> mk_block_counter c = 4096 -> mk_input_length c <> 4096 ->
  exists c', same_setup c c' /\ mk_finished c' = mk_finished c /\
    merkle_write_chunk sha d c s data =
    do s' <- write_hashes k s (mk_salt c) (mk_offset c + (mk_chunk_counter c + nth 0 (mk_level_offset c) 0)) data;
    Ok (c', s').
Proof.
  unfold merkle_write_chunk.
  induction k as [|k IH]; intros data c s Hd Hb Hi.
  - assert (data = []) as -> by (apply zlen_0_nil; lia). exists c.
    split; [apply same_setup_refl|]. split; [reflexivity|]. reflexivity.
  - assert (Hne : data <> []) by (intros ->; cbn in Hd; lia).
    destruct (length data) as [|f] eqn:El; [unfold zlen in Hd; lia|].
    rewrite write_loop_step by auto. cbv zeta. rewrite Hb, Z.min_l by lia.
    change (4096 - 4096 =? 0) with true. cbv iota.
    unfold step_running. rewrite Hb. change (4096 =? 4096) with true. cbv iota.
    unfold MBLOCK at 1. destruct (Z.eqb_spec (mk_input_length c) 4096); [contradiction|].
    set (dg := sha HASH_SHA256 (mk_salt c ++ ztake 4096 data)).
    set (c1 := mk_block_done c dg (mk_finished c)).
    assert (Hz : zlen (zdrop 4096 data) = 4096 * Z.of_nat k) by (rewrite zlen_zdrop; lia).
    cbn [write_hashes]. change (sha 1 (mk_salt c ++ ztake 4096 data)) with dg.
    assert (Hc1 : blk_ok c1) by apply blk_ok_done.
    destruct (io_wr d s (mk_offset c + (mk_chunk_counter c + nth 0 (mk_level_offset c) 0)) dg) as [s1| | |] eqn:Ew; cbn [bind];
      [|exists c; split; [apply same_setup_refl|split; reflexivity]..].
    destruct (IH (zdrop 4096 data) c1 s1 Hz eq_refl Hi) as (c' & H1 & H2 & H3).
    exists c'. split; [exact H1|]. split; [exact H2|].
    rewrite (write_loop_fuel sha d f (length (zdrop 4096 data))) by (auto; unfold zlen in Hz, Hd; lia).
    rewrite H3. f_equal. cbn [c1 mk_block_done mk_salt mk_offset mk_chunk_counter mk_level_offset].
    unfold MHASH. f_equal. lia.
Qed.
Lemma write_single data c s :
  zlen data = 4096 -> mk_block_counter c = 4096 -> mk_input_length c = 4096 ->
  merkle_write_chunk sha d c s data =
  do s' <- io_wr d s (mk_offset c + (mk_chunk_counter c + nth 0 (mk_level_offset c) 0)) (sha 1 (mk_salt c ++ data));
  Ok (mk_block_done c (sha 1 (mk_salt c ++ data)) true, s').
Proof.
  intros Hd Hb Hi. unfold merkle_write_chunk. assert (Hne : data <> []) by (intros ->; cbn in Hd; lia).
  destruct (length data) as [|f] eqn:El; [unfold zlen in Hd; lia|].
  rewrite write_loop_step by auto. cbv zeta. rewrite Hb, Hd. change (Z.min 4096 4096) with 4096.
  change (4096 - 4096 =? 0) with true. cbv iota.
  unfold step_running. rewrite Hb. change (4096 =? 4096) with true. cbv iota.
  rewrite Hi. change (4096 =? MBLOCK) with true. cbv iota. rewrite ztake_all by lia. reflexivity.
Qed.
End Chunks2.
