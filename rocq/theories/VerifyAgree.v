(* VerifyAgree.v -- verification looks at nothing before the offsets it is
   given; signing a package makes it verify *)
From Verif Require Import BaseLemmas HeaderModel HeaderSpec CodecProofs PartProofs CrcModel HashModel MerkleModel
  MerkleSpec MerkleSizes MerkleChunks MerkleProofs MerkleVerifySpec MerkleVerify VerifyModel VerifySpec VerifyProofs VerifySign.

Section Agree.
Context (sha : hashfn) (base : Z) (rd1 rd2 : rdfn) (Hrd : forall o n, base <= o -> rd1 o n = rd2 o n).
Let d1 := verify_io rd1.
Let d2 := verify_io rd2.
Definition off_ok (c : mctx) : Prop :=
  base <= mk_offset c /\ 0 <= mk_chunk_counter c /\ 0 <= nth 0 (mk_level_offset c) 0.
Lemma wr_agree s o b : base <= o -> io_wr d1 s o b = io_wr d2 s o b.
Proof. intros H. cbn [d1 d2 verify_io io_wr]. now rewrite Hrd. Qed.
Lemma write_loop_agree : forall fuel c s data, off_ok c ->
  write_loop sha d1 fuel c s data = write_loop sha d2 fuel c s data.
Proof.
  induction fuel as [|fuel IH]; intros c s data (H1 & H2 & H3); [reflexivity|].
  cbn [write_loop]. destruct (zlen data =? 0); [reflexivity|].
  destruct (mk_block_counter c - Z.min (mk_block_counter c) (zlen data) =? 0).
  - rewrite wr_agree by lia. match goal with |- bind ?x _ = _ => destruct x; try reflexivity end. cbn [bind].
    destruct (mk_input_length c =? MBLOCK); [reflexivity|]. apply IH.
    repeat split; cbn [mk_block_done mk_offset mk_chunk_counter mk_level_offset]; unfold MHASH; lia.
  - apply IH. repeat split; cbn [mk_progress mk_offset mk_chunk_counter mk_level_offset]; lia.
Qed.
Lemma write_loop_off : forall fuel c s data c' s', off_ok c ->
  write_loop sha d1 fuel c s data = Ok (c', s') -> off_ok c' /\ same_setup c c'.
Proof.
  induction fuel as [|fuel IH]; intros c s data c' s' Hc H; cbn [write_loop] in H.
  - destruct (zlen data =? 0); [|discriminate]. injection H as <- _. split; [auto|apply same_setup_refl].
  - destruct (zlen data =? 0). { injection H as <- _. split; [auto|apply same_setup_refl]. }
    destruct Hc as (H1 & H2 & H3).
    match type of H with (if ?b then _ else _) = _ => destruct b end.
    + match type of H with bind ?x _ = _ => destruct x; try discriminate end. cbn [bind] in H.
      destruct (mk_input_length c =? MBLOCK).
      * injection H as <- _. split; [|repeat split]. repeat split; cbn [mk_block_done mk_offset mk_chunk_counter mk_level_offset]; unfold MHASH; lia.
      * apply IH in H. { exact H. } repeat split; cbn [mk_block_done mk_offset mk_chunk_counter mk_level_offset]; unfold MHASH; lia.
    + apply IH in H. { exact H. } repeat split; cbn [mk_progress mk_offset mk_chunk_counter mk_level_offset]; lia.
Qed.
Lemma read_pieces_agree : forall k s pos acc, base <= pos -> read_pieces d1 k s pos acc = read_pieces d2 k s pos acc.
Proof.
  induction k as [|k IH]; intros; cbn [read_pieces]; [reflexivity|].
  cbn [d1 d2 verify_io io_rd]. rewrite Hrd by auto. apply bind_ext. intros. apply IH. unfold MHASH. lia.
Qed.
Lemma finish_level_agree : forall n s salt src dst, base <= src -> base <= dst ->
  finish_level sha d1 n s salt src dst = finish_level sha d2 n s salt src dst.
Proof.
  induction n as [|n IH]; intros; cbn [finish_level]; [reflexivity|].
  rewrite read_pieces_agree by auto. apply bind_ext. intros m. rewrite wr_agree by auto. apply bind_ext. intros.
  apply IH; unfold MBLOCK, MHASH; lia.
Qed.
Lemma finish_levels_agree : forall n i c s, base <= mk_offset c ->
  (forall j, (j < i + n)%nat -> 0 <= nth j (mk_level_offset c) 0) -> (1 <= i)%nat ->
  finish_levels sha d1 n i c s = finish_levels sha d2 n i c s.
Proof.
  induction n as [|n IH]; intros i c s Hb Hn Hi; cbn [finish_levels]; [reflexivity|].
  pose proof (Hn (i - 1)%nat ltac:(lia)). pose proof (Hn i ltac:(lia)).
  rewrite finish_level_agree by lia. apply bind_ext. intros. apply IH; [exact Hb|intros; apply Hn; lia|lia].
Qed.
Lemma merkle_finish_agree c s : base <= mk_offset c -> 0 < mk_levels c ->
  (forall j, (j < Z.to_nat (mk_levels c))%nat -> 0 <= nth j (mk_level_offset c) 0) ->
  merkle_finish sha d1 c s = merkle_finish sha d2 c s.
Proof.
  intros Hb Hl Hn. unfold merkle_finish. destruct (mk_finished c); [reflexivity|].
  rewrite finish_levels_agree; [|exact Hb|intros; apply Hn; lia|lia].
  apply bind_ext. intros s'. destruct (mk_levels c =? 0); [reflexivity|].
  pose proof (Hn (Z.to_nat (mk_levels c - 1)) ltac:(lia)). rewrite read_pieces_agree by lia. reflexivity.
Qed.
Lemma data_loop_agree : forall fuel c pos left, off_ok c -> base <= pos -> 0 <= left ->
  verify_data_loop sha rd1 fuel c pos left = verify_data_loop sha rd2 fuel c pos left /\
  (forall c', verify_data_loop sha rd1 fuel c pos left = Ok c' -> same_setup c c').
Proof.
  induction fuel as [|fuel IH]; intros c pos left Hc Hp Hl; cbn [verify_data_loop].
  { destruct (left =? 0); (split; [reflexivity|]); [|discriminate]. intros c' E. injection E as <-. apply same_setup_refl. }
  destruct (left =? 0). { split; [reflexivity|]. intros c' E. injection E as <-. apply same_setup_refl. }
  rewrite Hrd by auto. destruct (rd2 pos (Z.min left CHUNK)) as [b| | |]; cbn [bind]; try (split; [reflexivity|discriminate]).
  fold d1 d2. unfold merkle_write_chunk. rewrite <- write_loop_agree by auto.
  destruct (write_loop sha d1 (length b) c tt b) as [[c1 []]| | |] eqn:E; cbn [bind fst]; try (split; [reflexivity|discriminate]).
  destruct (write_loop_off _ _ _ _ _ _ Hc E) as [Hc1 Hs1].
  destruct (IH c1 (pos + Z.min left CHUNK) (left - Z.min left CHUNK)) as [I1 I2]; [auto|unfold CHUNK; lia|unfold CHUNK; lia|].
  split; [exact I1|]. intros c' Ec. apply I2 in Ec.
  clear -Hs1 Ec. destruct Hs1 as (?&?&?&?&?&?&?), Ec as (?&?&?&?&?&?&?). repeat split; congruence.
Qed.
Lemma verify_tree_agree o n t e salt : 0 <= n < 2^64 -> base <= o -> base <= t ->
  verify_merkle_tree sha rd1 o n t e salt = verify_merkle_tree sha rd2 o n t e salt.
Proof.
  intros Hn Ho Ht. unfold verify_merkle_tree.
  assert (Ei : merkle_init (verify_io rd1) tt n salt t false = merkle_init (verify_io rd2) tt n salt t false).
  { unfold merkle_init. destruct (negb _); [reflexivity|]. destruct (32 <? zlen salt); [reflexivity|].
    destruct (level_loop 5 0 n (repeat 0 4) 0) as [[lens total] [lv| | |]]; reflexivity. }
  rewrite Ei. destruct (merkle_init (verify_io rd2) tt n salt t false) as [c r] eqn:E.
  destruct r as [[]| | |]; try reflexivity. cbn [bind].
  destruct (init_ok_range _ _ _ _ _ _ _ _ Hn E) as (Hr & Ha & Hs).
  destruct (tree_blocks_exists (n / 4096)) as [l Hl]; [lia|].
  assert (H3 : zlen l <= 3). { apply (tree_blocks_levels _ _ Hl 3); [lia|]. change (128^3) with 2097152. lia. }
  destruct (init_accepts (verify_io rd2) tt n salt t false l) as (c' & E' & Hc); auto; try lia.
  rewrite E in E'. injection E' as <-.
  pose proof (tree_blocks_nonneg _ _ Hl) as Hnn. destruct (tree_blocks_pos _ _ Hl) as [_ Hlen].
  assert (Hoff : forall j, (j < length l)%nat -> 0 <= nth j (mk_level_offset c) 0).
  { intros j Hj. rewrite (ic_offs _ _ _ _ _ Hc) by auto.
    assert (0 <= zsum (skipn (S j) l)); [|lia].
    pose proof (Forall_skipn' _ (S j) _ Hnn) as G. clear -G. induction G; cbn [zsum fold_right]; [lia|]. unfold zsum in *. lia. }
  assert (Hok : off_ok c).
  { repeat split; [rewrite (ic_offset _ _ _ _ _ Hc); lia|rewrite (ic_chunk _ _ _ _ _ Hc); lia|apply Hoff; lia]. }
  destruct (data_loop_agree (Z.to_nat (n / CHUNK + 1)) c o n Hok Ho ltac:(lia)) as [A1 A2].
  rewrite <- A1. destruct (verify_data_loop sha rd1 (Z.to_nat (n / CHUNK + 1)) c o n) as [c1| | |] eqn:Ed; try reflexivity.
  cbn [bind]. destruct (A2 _ eq_refl) as (G1 & G2 & G3 & G4 & G5 & G6 & G7).
  fold d1 d2. rewrite merkle_finish_agree; [reflexivity| | |].
  - rewrite G7, (ic_offset _ _ _ _ _ Hc). lia.
  - rewrite G3, (ic_levels _ _ _ _ _ Hc). unfold zlen. lia.
  - rewrite G2, G3, (ic_levels _ _ _ _ _ Hc). intros j Hj. apply Hoff. unfold zlen in Hj. lia.
Qed.
End Agree.

Lemma part_offset_lower h p : sizes_ok (h_parts h) -> 4096 + sum_sizes (h_parts h) < 2^63 -> 4096 <= part_offset h p.
Proof.
  unfold part_offset. intros Hok Hs.
  assert (G : forall l acc, sizes_ok l -> 4096 <= acc -> acc + sum_sizes l < 2^63 ->
     4096 <= part_offset_loop (p_id p) acc l).
  { induction l as [|q l IH]; intros acc Ho Ha Hb; cbn [part_offset_loop]; [lia|].
    destruct (p_id q =? 0); [lia|]. destruct (p_id q =? p_id p); [lia|].
    inversion Ho as [|? ? [Wq Sq] Ho']; subst. rewrite sum_sizes_cons in Hb.
    pose proof (stored_size_nonneg q Wq).
    assert (0 <= sum_sizes l). { apply sum_sizes_nonneg. clear -Ho'. induction Ho'; constructor; tauto. }
    rewrite part_size_stored by auto.
    assert (s64 (acc + stored_size q) = acc + stored_size q) as -> by (unfold s64; rewrite Z.mod_small; lia).
    apply IH; auto; lia. }
  apply G; auto; unfold HDR_SIZE; lia.
Qed.

Lemma trees_loop_ext sha h1 h2 rd1 rd2 off : (forall o n, off <= o -> rd1 o n = rd2 o n) ->
  h_meta h1 = h_meta h2 -> h_metadata h1 = h_metadata h2 -> h_parts h1 = h_parts h2 ->
  (forall p, 4096 <= part_offset h1 p) ->
  forall l, sizes_ok l -> verify_trees_loop sha h1 rd1 off l = verify_trees_loop sha h2 rd2 off l.
Proof.
  intros Hrd Em Emd Ep Hlow.
  assert (gm : forall id r, get_meta h1 id r = get_meta h2 id r)
    by (intros; unfold get_meta, get_meta_int; now rewrite Em).
  assert (mr : forall i k n, meta_read h1 i k n = meta_read h2 i k n)
    by (intros; unfold meta_read; now rewrite Em, Emd).
  assert (gp : forall id, get_part h1 id = get_part h2 id) by (intros; unfold get_part; now rewrite Ep).
  assert (po : forall x, part_offset h2 x = part_offset h1 x) by (intros; unfold part_offset; now rewrite Ep).
  induction l as [|p l IH]; intros Hok; cbn [verify_trees_loop]; [reflexivity|].
  inversion Hok as [|? ? [Wp Sp] Hok']; subst. rewrite IH by auto.
  destruct (p_id p =? 0); [reflexivity|]. rewrite <- gm. destruct (get_meta h1 ID_MERKLE_ROOT_HASH (p_id p)); try reflexivity.
  rewrite <- mr. apply bind_ext. intros root. rewrite <- gm. destruct (get_meta h1 ID_MERKLE_SALT (p_id p)); try reflexivity.
  rewrite <- mr. apply bind_ext. intros salt. rewrite <- gp. apply bind_ext. intros ti. rewrite <- Ep.
  destruct (nth_error (h_parts h1) ti) as [t|]; [|reflexivity]. rewrite !po.
  pose proof (Hlow p). pose proof (Hlow t). pose proof (stored_size_nonneg p Wp).
  rewrite (verify_tree_agree sha off rd1 rd2) ; [reflexivity|auto| | |].
  - rewrite part_size_stored; auto.
  - unfold HDR_SIZE. lia.
  - unfold HDR_SIZE. lia.
Qed.

Section Sign.
Context {K : Type} (sha : hashfn) (sg : sigscheme K) (Hg : good_hash sha).

Theorem sign_then_verify junk1 junk2 pub_of p key :
  correct_scheme sg pub_of ->
  let h := pk_header p in let f := pk_file p in
  wf_header h -> sizes_ok (h_parts h) -> 4096 + sum_sizes (h_parts h) < 2^63 ->
  hash_supported (h_hash_kind h) = true -> 4096 <= zlen f ->
  payload_present f 4096 (h_parts h) ->
  let ph := splice 0 (sha (h_hash_kind h) (hashed_payload f 4096 (h_parts h))) (h_payload_hash h) in
  let h1 := with_payload_hash h ph in
  forall s, sg_sign sg (sha (h_hash_kind h) (enc_header (unsigned h1))) (h_hash_kind h) key = Ok s ->
  exists p', pkg_sign sha sg junk1 p key = (p', Ok tt) /\
    pk_header p' = with_signature h1 (s ++ zeros (512 - zlen s)) (zlen s) /\
    zlen (pk_file p') = zlen f /\ zdrop 4096 (pk_file p') = zdrop 4096 f /\
    dec_header (ztake 4096 (pk_file p')) = pk_header p' /\ wf_header (pk_header p') /\
    pkg_verify sha sg junk2 p' (pub_of key) = verify_trees_loop sha h (file_rd f) 4096 (h_parts h).
Proof.
  intros HC h f W Hok Hsum S Hf Hpay ph h1 s Hs.
  pose proof (digest_len_le (h_hash_kind h)) as D.
  set (dg := sha (h_hash_kind h) (hashed_payload f 4096 (h_parts h))).
  destruct (Hg (h_hash_kind h) (hashed_payload f 4096 (h_parts h)) S) as [Ld Od]. fold dg in Ld, Od.
  assert (D0 : 0 <= digest_len (h_hash_kind h)) by (rewrite <- Ld; apply zlen_nonneg).
  destruct (wf_payload_hash _ W) as [Lp Op].
  assert (Lph : zlen ph = 64) by (unfold ph; rewrite zlen_splice; fold dg; lia).
  assert (Oph : bytes_ok ph) by (apply bytes_ok_splice; auto).
  assert (W1 : wf_header h1) by (apply wf_with_payload_hash; auto).
  destruct (Hg (h_hash_kind h) (enc_header (unsigned h1)) S) as [Lg Og].
  destruct (HC _ _ _ _ Og Lg S Hs) as (Ls & Os & Vs). pose proof (zlen_nonneg s) as Ls0.
  destruct (payload_hash_spec sha h f 4096 64 Hok ltac:(lia)) as [_ PH].
  destruct (PH S) as [_ PH2]. destruct (PH2 Hpay) as [_ PH3]. specialize (PH3 ltac:(lia)).
  unfold pkg_sign, pkg_update_hash. fold h f. change HDR_SIZE with 4096. rewrite PH3. fold dg.
  change (with_payload_hash h (splice 0 dg (h_payload_hash h))) with h1.
  assert (Hk : h_hash_kind h1 = h_hash_kind h) by reflexivity.
  rewrite header_hash_spec by (auto; rewrite Hk; (exact S || lia)).
  cbn [pk_header]. rewrite Hk, Hs.
  set (sig := splice 0 s (zeros 512)).
  assert (Esig : sig = s ++ zeros (512 - zlen s)).
  { unfold sig, splice. rewrite ztake_0. cbn [app]. rewrite Z.add_0_l, zdrop_zeros by lia. reflexivity. }
  assert (Lsig : zlen sig = 512) by (rewrite Esig; zlia).
  assert (Hu : u16 (zlen s) = zlen s) by (unfold u16; rewrite Z.mod_small; lia).
  rewrite Hu. set (h2 := with_signature h1 sig (zlen s)).
  assert (W2 : wf_header h2).
  { apply wf_with_signature; auto; [|lia]. rewrite Esig. apply bytes_ok_app. split; auto. apply bytes_ok_zeros. }
  pose proof (zlen_enc_header h2 W2) as Le.
  exists (mkPkg h2 (fwrite_at f 0 (enc_header h2))). split; [reflexivity|]. cbn [pk_header pk_file].
  rewrite fwrite_at_in by lia.
  assert (Ef : splice 0 (enc_header h2) f = enc_header h2 ++ zdrop 4096 f).
  { unfold splice. rewrite ztake_0. cbn [app]. now rewrite Z.add_0_l, Le. }
  rewrite Ef.
  assert (Edrop : zdrop 4096 (enc_header h2 ++ zdrop 4096 f) = zdrop 4096 f).
  { rewrite zdrop_app_r by lia. rewrite Le. apply zdrop_0. }
  assert (Elen : zlen (enc_header h2 ++ zdrop 4096 f) = zlen f) by (rewrite zlen_app, zlen_zdrop; lia).
  assert (Epay : hashed_payload (enc_header h2 ++ zdrop 4096 f) 4096 (h_parts h) = hashed_payload f 4096 (h_parts h)).
  { apply hashed_payload_ext; auto; [apply (wf_parts _ W)|lia]. }
  split; [unfold h2; now rewrite Esig|]. split; [exact Elen|]. split; [exact Edrop|].
  split. { rewrite ztake_app_l, ztake_all by lia. now apply dec_enc_header. }
  split; [exact W2|].
  set (f' := enc_header h2 ++ zdrop 4096 f) in *. clearbody f'.
  (* verification *)
  unfold pkg_verify. cbn [pk_header pk_file].
  assert (Hk2 : h_hash_kind h2 = h_hash_kind h) by reflexivity.
  rewrite header_hash_spec by (auto; rewrite Hk2; (exact S || lia)). cbn [bind].
  change (h_signature_sz h2) with (zlen s). rewrite Z.gtb_ltb.
  destruct (Z.ltb_spec 512 (zlen s)); [lia|].
  change (h_signature h2) with sig. rewrite Esig, slice_here by reflexivity.
  assert (Eu : unsigned h2 = unsigned h1) by reflexivity. rewrite Eu, Hk2, Vs. cbn [bind].
  unfold verify_payload. change HDR_SIZE with 4096.
  assert (Hok2 : sizes_ok (h_parts h2)) by exact Hok.
  destruct (payload_hash_spec sha h2 f' 4096 64 Hok2 ltac:(lia)) as [_ QH].
  destruct (QH S) as [_ QH2]. destruct QH2 as [_ QH3].
  { unfold payload_present in *. rewrite Elen. exact Hpay. }
  rewrite QH3 by (rewrite Hk2; lia). rewrite Hk2. change (h_parts h2) with (h_parts h). rewrite Epay. fold dg.
  cbn [bind]. rewrite Ld. change (h_payload_hash h2) with ph.
  assert (Eh : slice 0 (digest_len (h_hash_kind h)) ph = dg).
  { unfold ph. fold dg. rewrite <- Ld. apply slice_splice_same; lia. }
  rewrite Eh, bytes_eqb_refl.
  symmetry. apply trees_loop_ext; auto.
  - intros o n Ho. unfold file_rd, fread_at. destruct (o <? 0); [reflexivity|].
    assert (G : slice o n f = slice o n f').
    { unfold slice. f_equal. replace o with ((o - 4096) + 4096) by lia. rewrite <- !zdrop_zdrop by lia. now rewrite Edrop. }
    now rewrite G.
  - intros q. now apply part_offset_lower.
Qed.
End Sign.

Lemma raw_signature_ok p sig : wf_header (pk_header p) -> zlen sig <= 512 -> bytes_ok sig -> 4096 <= zlen (pk_file p) ->
  exists p', pkg_write_raw_signature p sig = Ok p' /\
    pk_header p' = with_signature (pk_header p) (sig ++ zeros (512 - zlen sig)) (zlen sig) /\
    ztake 4096 (pk_file p') = enc_header (pk_header p') /\ zdrop 4096 (pk_file p') = zdrop 4096 (pk_file p) /\
    forall n, 0 < zlen sig <= n -> snd (copyz_signature (pk_header p') n) = Ok sig.
Proof.
  intros W L O Hf. unfold pkg_write_raw_signature. rewrite Z.gtb_ltb. destruct (Z.ltb_spec 512 (zlen sig)); [lia|].
  pose proof (zlen_nonneg sig).
  assert (Esig : splice 0 sig (zeros 512) = sig ++ zeros (512 - zlen sig)).
  { unfold splice. rewrite ztake_0. cbn [app]. rewrite Z.add_0_l, zdrop_zeros by lia. reflexivity. }
  assert (Hu : u16 (zlen sig) = zlen sig) by (unfold u16; rewrite Z.mod_small; lia).
  rewrite Esig, Hu. set (h2 := with_signature (pk_header p) (sig ++ zeros (512 - zlen sig)) (zlen sig)).
  assert (W2 : wf_header h2).
  { apply wf_with_signature; auto; [zlia| |lia]. apply bytes_ok_app. split; auto. apply bytes_ok_zeros. }
  pose proof (zlen_enc_header h2 W2) as Le.
  exists (mkPkg h2 (fwrite_at (pk_file p) 0 (enc_header h2))). split; [reflexivity|]. cbn [pk_header pk_file]. split; [reflexivity|].
  rewrite fwrite_at_in by lia. unfold splice. rewrite ztake_0. cbn [app]. rewrite Z.add_0_l, Le.
  split; [rewrite ztake_app_l by lia; apply ztake_all; lia|].
  split; [rewrite zdrop_app_r, Le by lia; apply zdrop_0|].
  intros n Hn. unfold copyz_signature. change (h_signature_sz h2) with (zlen sig). rewrite !Z.gtb_ltb.
  unfold SIGNATURE_MAX_BYTES. destruct (Z.ltb_spec 512 (zlen sig)); [lia|]. destruct (Z.eqb_spec (zlen sig) 0); [lia|].
  destruct (Z.ltb_spec n (zlen sig)); [lia|]. cbn [snd]. change (h_signature h2) with (sig ++ zeros (512 - zlen sig)).
  now rewrite slice_here.
Qed.

Lemma sign_failure_keeps_file {K} sha (sg : sigscheme K) junk p key p' x :
  pkg_sign sha sg junk p key = (p', x) -> x <> Ok tt -> pk_file p' = pk_file p.
Proof.
  unfold pkg_sign, pkg_update_hash.
  destruct (compute_payload_hash sha (pk_header p) (file_rd (pk_file p)) HDR_SIZE 64) as [d|e| |];
    try (intros E _; injection E as <- _; reflexivity).
  destruct (compute_header_hash sha _ 64) as [y|e| |]; try (intros E _; injection E as <- _; reflexivity).
  destruct (sg_sign sg _ _ key) as [s|e| |]; intros E N; injection E as <- <-; try reflexivity. congruence.
Qed.
Lemma raw_signature_overflow p sig : 512 < zlen sig -> pkg_write_raw_signature p sig = UB.
Proof. intros H. unfold pkg_write_raw_signature. rewrite Z.gtb_ltb. destruct (Z.ltb_spec 512 (zlen sig)); [reflexivity|lia]. Qed.
