(* PkgTrees.v -- verification of hash trees in packages that grow *)
From Verif Require Import BaseLemmas HeaderModel HeaderSpec HeaderHistory CodecProofs PartProofs MetaProofs CrcModel CrcProofs HashModel
  MerkleModel MerkleSpec MerkleSizes MerkleChunks MerkleProofs MerkleVerifySpec MerkleVerify MerkleApi
  VerifyModel VerifySpec VerifyProofs VerifySign VerifyAgree VerifyWitness PkgModel PkgSpec PkgProofs PkgAdd PkgDelete PkgHistory.

(* ---- a reader that can read more verifies everything it did before ---- *)
Section Mono.
Context (sha : hashfn) (rd1 rd2 : rdfn) (Hrd : forall o n b, rd1 o n = Ok b -> rd2 o n = Ok b).
Let d1 := verify_io rd1.
Let d2 := verify_io rd2.
Lemma wr_mono s o b s' : io_wr d1 s o b = Ok s' -> io_wr d2 s o b = Ok s'.
Proof.
  cbn [d1 d2 verify_io io_wr]. destruct (rd1 o (zlen b)) as [x| | |] eqn:E; try discriminate.
  rewrite (Hrd _ _ _ E). auto.
Qed.
Lemma rd_mono s o n b : io_rd d1 s o n = Ok b -> io_rd d2 s o n = Ok b.
Proof. apply Hrd. Qed.
Lemma write_loop_mono : forall fuel c s data x, write_loop sha d1 fuel c s data = Ok x -> write_loop sha d2 fuel c s data = Ok x.
Proof.
  induction fuel as [|fuel IH]; intros c s data x; cbn [write_loop]; auto.
  destruct (zlen data =? 0); auto. destruct (_ - _ =? 0); auto.
  match goal with |- bind ?y _ = _ -> _ => destruct y as [s'| | |] eqn:E; try discriminate end.
  rewrite (wr_mono _ _ _ _ E). cbn [bind]. destruct (mk_input_length c =? MBLOCK); auto.
Qed.
Lemma read_pieces_mono : forall k s pos acc x, read_pieces d1 k s pos acc = Ok x -> read_pieces d2 k s pos acc = Ok x.
Proof.
  induction k as [|k IH]; intros s pos acc x; cbn [read_pieces]; auto.
  destruct (io_rd d1 s pos MHASH) as [b| | |] eqn:E; try discriminate. rewrite (rd_mono _ _ _ _ E). cbn [bind]. auto.
Qed.
Lemma finish_level_mono : forall n s salt src dst x,
  finish_level sha d1 n s salt src dst = Ok x -> finish_level sha d2 n s salt src dst = Ok x.
Proof.
  induction n as [|n IH]; intros s salt src dst x; cbn [finish_level]; auto.
  destruct (read_pieces d1 128 s src salt) as [m| | |] eqn:E; try discriminate. rewrite (read_pieces_mono _ _ _ _ _ E).
  cbn [bind]. match goal with |- bind ?y _ = _ -> _ => destruct y as [s'| | |] eqn:E2; try discriminate end.
  rewrite (wr_mono _ _ _ _ E2). cbn [bind]. auto.
Qed.
Lemma finish_levels_mono : forall n i c s x, finish_levels sha d1 n i c s = Ok x -> finish_levels sha d2 n i c s = Ok x.
Proof.
  induction n as [|n IH]; intros i c s x; cbn [finish_levels]; auto.
  match goal with |- bind ?y _ = _ -> _ => destruct y as [s'| | |] eqn:E; try discriminate end.
  rewrite (finish_level_mono _ _ _ _ _ _ E). cbn [bind]. auto.
Qed.
Lemma merkle_finish_mono c s x : merkle_finish sha d1 c s = Ok x -> merkle_finish sha d2 c s = Ok x.
Proof.
  unfold merkle_finish. destruct (mk_finished c); auto.
  match goal with |- bind ?y _ = _ -> _ => destruct y as [s'| | |] eqn:E; try discriminate end.
  rewrite (finish_levels_mono _ _ _ _ _ E). cbn [bind]. destruct (mk_levels c =? 0); auto.
  match goal with |- bind ?y _ = _ -> _ => destruct y as [m| | |] eqn:E2; try discriminate end.
  rewrite (read_pieces_mono _ _ _ _ _ E2). auto.
Qed.
Lemma verify_data_mono : forall fuel c pos left x,
  verify_data_loop sha rd1 fuel c pos left = Ok x -> verify_data_loop sha rd2 fuel c pos left = Ok x.
Proof.
  induction fuel as [|fuel IH]; intros c pos left x; cbn [verify_data_loop]; destruct (left =? 0); auto.
  destruct (rd1 pos (Z.min left CHUNK)) as [b| | |] eqn:E; try discriminate. rewrite (Hrd _ _ _ E). cbn [bind].
  unfold merkle_write_chunk. fold d1 d2.
  destruct (write_loop sha d1 (length b) c tt b) as [y| | |] eqn:E2; try discriminate.
  rewrite (write_loop_mono _ _ _ _ _ E2). cbn [bind]. auto.
Qed.
Lemma verify_tree_mono o n t e salt :
  verify_merkle_tree sha rd1 o n t e salt = Ok tt -> verify_merkle_tree sha rd2 o n t e salt = Ok tt.
Proof.
  unfold verify_merkle_tree.
  assert (Ei : merkle_init (verify_io rd1) tt n salt t false = merkle_init (verify_io rd2) tt n salt t false).
  { unfold merkle_init. destruct (negb _); [reflexivity|]. destruct (32 <? zlen salt); [reflexivity|].
    destruct (level_loop 5 0 n (repeat 0 4) 0) as [[lens total] [lv| | |]]; reflexivity. }
  rewrite Ei. destruct (merkle_init (verify_io rd2) tt n salt t false) as [c r].
  destruct r as [[]| | |]; auto. cbn [bind].
  match goal with |- bind ?y _ = _ -> _ => destruct y as [c1| | |] eqn:E; try discriminate end.
  rewrite (verify_data_mono _ _ _ _ _ E). cbn [bind]. fold d1 d2.
  destruct (merkle_finish sha d1 c1 tt) as [x| | |] eqn:E2; try discriminate.
  rewrite (merkle_finish_mono _ _ _ E2). auto.
Qed.
End Mono.

Lemma file_rd_extend (f ext : bytes) o n b : file_rd f o n = Ok b -> file_rd (f ++ ext) o n = Ok b.
Proof.
  unfold file_rd, fread_at. destruct (Z.ltb_spec o 0); [discriminate|].
  destruct (Z.eqb_spec (zlen (slice o n f)) n) as [E|E]; [|discriminate].
  intros X. injection X as <-.
  assert (S : slice o n (f ++ ext) = slice o n f).
  { pose proof (zlen_nonneg f). destruct (Z.le_gt_cases n 0); [now rewrite !slice_neg_len by lia|].
    rewrite zlen_slice in E. apply slice_app_l; lia. }
  rewrite S, E, Z.eqb_refl. reflexivity.
Qed.
Lemma verify_tree_grow sha (h1 h2 body ext : bytes) o n t e salt : zlen h1 = 4096 -> zlen h2 = 4096 ->
  0 <= n < 2^64 -> 4096 <= o -> 4096 <= t ->
  verify_merkle_tree sha (file_rd (h1 ++ body)) o n t e salt = Ok tt ->
  verify_merkle_tree sha (file_rd (h2 ++ body ++ ext)) o n t e salt = Ok tt.
Proof.
  intros L1 L2 Hn Ho Ht V. rewrite app_assoc. eapply verify_tree_mono; [intros; apply file_rd_extend; eassumption|].
  rewrite <- (verify_tree_agree sha 4096 (file_rd (h1 ++ body)) (file_rd (h2 ++ body))); auto.
  intros o' n' Ho'. unfold file_rd, fread_at. destruct (o' <? 0); [reflexivity|].
  rewrite !slice_app_r by lia. rewrite L1, L2. reflexivity.
Qed.

(* ---- metadata lookups through the list of entries ---- *)
Lemma get_meta_live h live id ref : id <> 0 -> metas_are (h_meta h) (h_metadata h) live ->
  get_meta h id ref = match find_index (fun e => (e_id e =? id) && (e_ref e =? ref)) live with
                      | Some i => Ok i | None => Err E_NOT_FOUND end.
Proof.
  intros Hid M. rewrite get_meta_find. apply metas_are_iff in M as (_ & _ & _ & _ & L & _).
  now rewrite (find_key_layout _ _ _ _ _ Hid L).
Qed.
Lemma get_meta_in h live id ref v : id <> 0 -> metas_are (h_meta h) (h_metadata h) live -> In (mkEntry id ref v) live ->
  exists i, get_meta h id ref = Ok i /\ nth_error live i = Some (mkEntry id ref v).
Proof.
  intros Hid M Hin. rewrite (get_meta_live _ _ _ _ Hid M). apply in_split in Hin as (a & b & ->).
  exists (length a). rewrite find_key_at by (apply metas_are_iff in M; tauto). split; auto.
  rewrite nth_error_app2, Nat.sub_diag by lia. reflexivity.
Qed.
Lemma get_meta_ok_in h live id ref i : id <> 0 -> metas_are (h_meta h) (h_metadata h) live -> get_meta h id ref = Ok i ->
  exists v, nth_error live i = Some (mkEntry id ref v).
Proof.
  intros Hid M. rewrite (get_meta_live _ _ _ _ Hid M). destruct (find_index _ live) as [j|] eqn:E; [|discriminate].
  intros X. injection X as <-. apply find_key_Some in E as (a & v & b & -> & <-). exists v.
  rewrite nth_error_app2, Nat.sub_diag by lia. reflexivity.
Qed.
Lemma meta_read_live h live i id ref v : metas_are (h_meta h) (h_metadata h) live ->
  nth_error live i = Some (mkEntry id ref v) -> zlen v = 32 -> meta_read h i 0 32 = Ok v.
Proof.
  intros (_ & _ & _ & _ & _ & H & _) Hi Hv. destruct (H i _ Hi) as (B & S & m & Hm & _ & _ & _ & Eo).
  cbn [e_val] in *. unfold meta_read, METADATA_BYTES. rewrite Hm, Eo, Z.add_0_r. rewrite Hv in B, S.
  destruct (Z.gtb_spec (meta_end (firstn i live) + 32) 1920); [lia|]. now rewrite S.
Qed.

Definition is_tree_meta (e : mentry) : Prop := e_id e = ID_MERKLE_SALT \/ e_id e = ID_MERKLE_ROOT_HASH.
Definition tree_meta_sized (live : list mentry) : Prop := Forall (fun e => is_tree_meta e -> zlen (e_val e) = 32) live.

(* verification of all trees, in terms of the parts and metadata entries *)
Definition trees_verified (sha : hashfn) (p : pkg) (es : list (parth * bytes)) (live : list mentry) : Prop :=
  forall e root, In e es -> In (mkEntry ID_MERKLE_ROOT_HASH (p_id (fst e)) root) live ->
  exists salt t, In (mkEntry ID_MERKLE_SALT (p_id (fst e)) salt) live /\ In t es /\
    p_id (fst t) = part_id_to_hash_tree_id (p_id (fst e)) /\
    verify_merkle_tree sha (file_rd (pk_file p)) (part_offset (pk_header p) (fst e)) (part_size (fst e))
      (part_offset (pk_header p) (fst t)) root salt = Ok tt.

Lemma get_part_in p (es : list (parth * bytes)) t : holds p es -> In t es ->
  exists i, get_part (pk_header p) (p_id (fst t)) = Ok i /\ nth_error (h_parts (pk_header p)) i = Some (fst t).
Proof.
  intros H Hin. apply in_split in Hin as (a & b & ->). destruct t as [q c]. exists (length a).
  exact (get_part_at p a q c b H).
Qed.
Lemma get_part_ok_in p (es : list (parth * bytes)) id i t : holds p es -> id <> 0 -> get_part (pk_header p) id = Ok i ->
  nth_error (h_parts (pk_header p)) i = Some t -> exists c, In (t, c) es /\ p_id t = id.
Proof.
  intros H Hid G N. destruct (in_dec Z.eq_dec id (map (fun e : parth * bytes => p_id (fst e)) es)) as [Hin|Hn].
  - apply in_map_iff in Hin as (e & E & He). destruct (get_part_in p es e H He) as (j & G' & N'). rewrite E in G'.
    rewrite G in G'. injection G' as <-. rewrite N in N'. injection N' as ->. exists (snd e). destruct e; auto.
  - rewrite (get_part_none p es id H Hid Hn) in G. discriminate.
Qed.
Lemma ID_ROOT_nz : ID_MERKLE_ROOT_HASH <> 0. Proof. discriminate. Qed.
Lemma ID_SALT_nz : ID_MERKLE_SALT <> 0. Proof. discriminate. Qed.

Lemma trees_iff sha p (es : list (parth * bytes)) live : holds p es -> metas_are (h_meta (pk_header p)) (h_metadata (pk_header p)) live ->
  tree_meta_sized live -> (forall e root, In e es -> In (mkEntry ID_MERKLE_ROOT_HASH (p_id (fst e)) root) live ->
     part_id_to_hash_tree_id (p_id (fst e)) <> 0) ->
  (verify_trees_loop sha (pk_header p) (file_rd (pk_file p)) 4096 (h_parts (pk_header p)) = Ok tt <->
   trees_verified sha p es live).
Proof.
  intros H M Sz Hnz. unfold tree_meta_sized in Sz. rewrite Forall_forall in Sz. split.
  - intros V e root He Hr.
    assert (Hp : In (fst e) (h_parts (pk_header p))).
    { rewrite (ho_table _ _ H). apply in_or_app. left. now apply in_map. }
    assert (Hid : p_id (fst e) <> 0) by (pose proof (ho_nonzero _ _ H) as N; rewrite Forall_forall in N; now apply N).
    destruct (get_meta_in _ _ _ _ _ ID_ROOT_nz M Hr) as (mi & Gm & Nm).
    destruct (trees_loop_ok _ _ _ _ _ V (fst e) mi Hp Hid Gm) as (root' & si & salt & ti & t & R & Gs & Rs & Gt & Nt & Vt).
    rewrite (meta_read_live _ _ _ _ _ _ M Nm) in R by (apply (Sz _ Hr); right; reflexivity). injection R as <-.
    destruct (get_meta_ok_in _ _ _ _ _ ID_SALT_nz M Gs) as (v & Ns). pose proof (nth_error_In _ _ Ns) as Hs.
    rewrite (meta_read_live _ _ _ _ _ _ M Ns) in Rs by (apply (Sz _ Hs); left; reflexivity). injection Rs as <-.
    destruct (get_part_ok_in _ _ _ _ _ H (Hnz _ _ He Hr) Gt Nt) as (c & Hc & Et).
    exists v, (t, c). split; auto. split; auto. split; [exact Et|]. cbn [fst]. unfold HDR_SIZE in Vt.
    now replace (part_offset (pk_header p) (fst e) - 4096 + 4096) with (part_offset (pk_header p) (fst e)) in Vt by lia;
      replace (part_offset (pk_header p) t - 4096 + 4096) with (part_offset (pk_header p) t) in Vt by lia.
  - intros T.
    assert (L : forall l, (forall q, In q l -> p_id q <> 0 -> exists c, In (q, c) es) ->
      verify_trees_loop sha (pk_header p) (file_rd (pk_file p)) 4096 l = Ok tt).
    { induction l as [|q l IH]; intros Hl; [reflexivity|]. cbn [verify_trees_loop].
      assert (Hl' : forall q0, In q0 l -> p_id q0 <> 0 -> exists c, In (q0, c) es) by (intros; apply Hl; auto; now right).
      destruct (Z.eqb_spec (p_id q) 0) as [|Hid]; [auto|].
      destruct (Hl q (or_introl eq_refl) Hid) as (c & Hc).
      destruct (get_meta (pk_header p) ID_MERKLE_ROOT_HASH (p_id q)) as [mi| | |] eqn:Gm; auto.
      destruct (get_meta_ok_in _ _ _ _ _ ID_ROOT_nz M Gm) as (root & Nm). pose proof (nth_error_In _ _ Nm) as Hr.
      rewrite (meta_read_live _ _ _ _ _ _ M Nm) by (apply (Sz _ Hr); right; reflexivity). cbn [bind].
      destruct (T (q, c) root Hc Hr) as (salt & t & Hs & Ht & Et & V). cbn [fst] in *.
      destruct (get_meta_in _ _ _ _ _ ID_SALT_nz M Hs) as (si & Gs & Ns). rewrite Gs.
      rewrite (meta_read_live _ _ _ _ _ _ M Ns) by (apply (Sz _ Hs); left; reflexivity). cbn [bind].
      destruct (get_part_in p es t H Ht) as (ti & Gt & Nt). rewrite <- Et, Gt. cbn [bind]. rewrite Nt.
      unfold HDR_SIZE.
      replace (part_offset (pk_header p) q - 4096 + 4096) with (part_offset (pk_header p) q) by lia.
      replace (part_offset (pk_header p) (fst t) - 4096 + 4096) with (part_offset (pk_header p) (fst t)) by lia.
      rewrite V. cbn [bind]. auto. }
    apply L. intros q Hq Hid. rewrite (ho_table _ _ H) in Hq. apply in_app_or in Hq as [Hq|Hq].
    + apply in_map_iff in Hq as ([q' c] & E & Hc). cbn [fst] in E. subst. eauto.
    + apply repeat_spec in Hq as ->. elim Hid. reflexivity.
Qed.

(* what verifies in a package still verifies after parts and metadata have
   been appended *)
Lemma part_offset_grow p p' (es new : list (parth * bytes)) e : holds p es -> holds p' (es ++ new) -> In e es ->
  part_offset (pk_header p') (fst e) = part_offset (pk_header p) (fst e) /\ 4096 <= part_offset (pk_header p) (fst e).
Proof.
  intros H H' Hin. apply in_split in Hin as (a & b & ->). destruct e as [q c]. cbn [fst].
  rewrite (part_offset_at p a q c b H).
  assert (E : (a ++ (q, c) :: b) ++ new = a ++ (q, c) :: (b ++ new)) by now rewrite <- app_assoc.
  rewrite E in H'. rewrite (part_offset_at p' a q c (b ++ new) H').
  pose proof (zlen_nonneg (concat (map snd a))). lia.
Qed.
Lemma trees_grow sha p p' (es new : list (parth * bytes)) live more : holds p es -> holds p' (es ++ new) ->
  trees_verified sha p es live ->
  (forall e root, In e es -> ~ In (mkEntry ID_MERKLE_ROOT_HASH (p_id (fst e)) root) more) ->
  (forall e root, In e new -> In (mkEntry ID_MERKLE_ROOT_HASH (p_id (fst e)) root) (live ++ more) ->
     exists salt t, In (mkEntry ID_MERKLE_SALT (p_id (fst e)) salt) (live ++ more) /\ In t (es ++ new) /\
       p_id (fst t) = part_id_to_hash_tree_id (p_id (fst e)) /\
       verify_merkle_tree sha (file_rd (pk_file p')) (part_offset (pk_header p') (fst e)) (part_size (fst e))
         (part_offset (pk_header p') (fst t)) root salt = Ok tt) ->
  trees_verified sha p' (es ++ new) (live ++ more).
Proof.
  intros H H' T Hm Hn e root He Hr. apply in_app_or in He as [He|He]; [|now apply Hn].
  apply in_app_or in Hr as [Hr|Hr]; [|elim (Hm _ _ He Hr)].
  destruct (T e root He Hr) as (salt & t & Hs & Ht & Et & V).
  exists salt, t. split; [apply in_or_app; auto|]. split; [apply in_or_app; auto|]. split; auto.
  destruct (part_offset_grow _ _ _ _ _ H H' He) as [E1 L1]. destruct (part_offset_grow _ _ _ _ _ H H' Ht) as [E2 L2].
  rewrite E1, E2. rewrite (ho_file _ _ H) in V. rewrite (ho_file _ _ H'), map_app, concat_app.
  destruct (entry_wf _ _ _ H He) as (W & S & B).
  apply (verify_tree_grow sha (enc_header (pk_header p))); auto.
  - apply zlen_enc_header. apply (ho_wf _ _ H).
  - apply zlen_enc_header. apply (ho_wf _ _ H').
  - rewrite part_size_stored by (auto; lia). rewrite <- S. pose proof (zlen_nonneg (snd e)). lia.
Qed.
