(* PkgMerkle.v -- bpak_pkg_add_file_with_merkle_tree, and packages built by
   adding files with and without hash trees *)
From Verif Require Import BaseLemmas HeaderModel HeaderSpec HeaderHistory CodecProofs PartProofs MetaProofs CrcModel CrcProofs HashModel
  MerkleModel MerkleSpec MerkleSizes MerkleChunks MerkleProofs MerkleVerifySpec MerkleVerify MerkleApi
  VerifyModel VerifySpec VerifyProofs VerifySign VerifyAgree VerifyWitness PkgModel PkgSpec PkgProofs PkgAdd PkgDelete PkgHistory
  PkgApi PkgTrees.

(* ---- adding a metadata entry and writing its value ---- *)
Lemma add_meta_bytes_ok h live id ref v : 0 < id < 2^32 -> 0 <= ref < 2^32 -> bytes_ok v ->
  wf_header h -> metas_are (h_meta h) (h_metadata h) live -> ~ In (id, ref) (map e_key live) ->
  (length live < 32)%nat -> meta_end live + zlen v <= 1920 ->
  exists h', add_meta_bytes h id ref v = (h', Ok tt) /\ wf_header h' /\ same_but_meta h h' /\
    metas_are (h_meta h') (h_metadata h') (live ++ [mkEntry id ref v]).
Proof.
  intros Hid Href Bv W M Nin Hl Hend. unfold add_meta_bytes.
  pose proof (zlen_nonneg v) as Hv. pose proof (meta_end_nonneg live) as He.
  pose proof (add_meta_spec h live id ref (zlen v) ltac:(lia) M) as A.
  assert (Hf : find_index (fun e => (e_id e =? id) && (e_ref e =? ref)) live = None) by now apply find_key_None.
  rewrite Hf in A. destruct (Nat.eqb_spec (length live) 32); [lia|].
  destruct A as (m & Hm & Em & ->). unfold METADATA_BYTES.
  destruct (Z.gtb_spec (meta_end live + zlen v) 1920); [lia|].
  pose proof (metas_are_add _ _ _ id ref (zlen v) m ltac:(lia) M Hf Hl Hm Hv Hend) as M1.
  pose proof (metas_are_write _ _ live id ref _ [] 0 v M1 ltac:(lia)) as M2.
  destruct M as (M11 & M12 & M13).
  assert (Lv : zlen (slice (meta_end live) (zlen v) (h_metadata h)) = zlen v) by (apply zlen_slice_in; lia).
  specialize (M2 ltac:(lia)). rewrite Z.add_0_r in M2.
  assert (Es : splice 0 v (slice (meta_end live) (zlen v) (h_metadata h)) = v).
  { unfold splice. rewrite ztake_0, zdrop_all by lia. now rewrite app_nil_r. }
  rewrite Es in M2.
  unfold meta_write. cbn [h_meta with_meta h_metadata].
  rewrite nth_error_list_upd_same by (apply nth_error_Some; congruence).
  cbn [fill m_offset]. unfold METADATA_BYTES. rewrite Z.add_0_r.
  destruct (Z.gtb_spec (meta_end live + zlen v) 1920); [lia|].
  eexists. split; [reflexivity|]. split; [|split].
  - apply wf_with_metas; auto.
    + rewrite length_list_upd. exact M11.
    + apply Forall_list_upd; [apply (wf_metas h W)|].
      destruct (wf_metas h W) as [_ Wm]. rewrite Forall_forall in Wm. specialize (Wm m (nth_error_In _ _ Hm)).
      destruct Wm as (_ & _ & _ & _ & W5 & W6). unfold wf_meta, fill. cbn [m_id m_size m_offset m_ref m_pad].
      repeat split; auto; lia.
    + rewrite zlen_splice; lia.
    + apply bytes_ok_splice; auto. apply (wf_metadata h W).
  - unfold same_but_meta. destruct h; reflexivity.
  - exact M2.
Qed.

(* ---- building the tree ---- *)
Lemma concat_chunks : forall fuel (data : bytes), (length data <= fuel)%nat -> concat (chunks_of fuel data) = data.
Proof.
  induction fuel as [|k IH]; intros data Hl; cbn [chunks_of].
  - destruct data; [reflexivity|cbn [length] in Hl; lia].
  - destruct data as [|x r]; [reflexivity|]. cbn [concat]. rewrite IH.
    + apply ztake_zdrop.
    + unfold zdrop, CHUNK. rewrite skipn_length. cbn [length] in *. lia.
Qed.
Lemma build_tree_ok sha data salt ls : good_hash sha -> 0 < zlen data <= 2^33 -> zlen data mod 4096 = 0 -> zlen salt = 32 ->
  hash_levels sha salt data ls ->
  build_tree sha data salt = Ok (hash_tree ls, root_hash sha salt data ls) /\ 0 < zlen (hash_tree ls) < 2^40 /\
  zlen (hash_tree ls) mod 4096 = 0.
Proof.
  intros G Hn Ha Hs Hls. unfold build_tree.
  destruct (compute_size_spec (zlen data) ltac:(lia)) as [_ C]. destruct (C Ha) as (C1 & _ & C3).
  destruct (proj1 C1 ltac:(lia)) as [sz Es]. rewrite Es. cbn [bind].
  destruct (C3 sz Es) as (l & Hl & _ & Esz & _). pose proof (tree_blocks_sum _ _ Hl) as Sum.
  destruct (hash_levels_exists sha salt _ _ G Hl data) as (ls' & Hls' & Hmap); [lia|].
  rewrite <- (hash_levels_fun _ _ _ _ Hls _ Hls') in Hmap. clear ls' Hls'.
  assert (Ht : zlen (hash_tree ls) = sz) by (rewrite zlen_hash_tree, Hmap, zsum_map; lia).
  destruct (merkle_run sha mem_io G mem_io_like [] (zeros sz) [] data salt (chunks_of (length data) data) true ls (zlen data))
    as (c & s0 & E1 & E2 & c' & s' & E3 & E4); auto; try lia.
  - now apply concat_chunks.
  - rewrite zlen_zeros. lia.
  - cbn [app] in E1, E4. rewrite app_nil_r in E1, E4. change (zlen (@nil Z)) with 0 in E1. rewrite E1. cbn [bind].
    rewrite E3. cbn [bind fst snd]. split; [exact E4|]. rewrite Ht, Esz. split; [|lia]. split; lia.
Qed.

(* ---- packages whose trees verify ---- *)
Record tree_inv (sha : hashfn) (p : pkg) (es : list (parth * bytes)) (live : list mentry) : Prop := {
  tv_holds : holds p es;
  tv_plain : plain es;
  tv_hash : hash_supported (h_hash_kind (pk_header p)) = true;
  tv_meta : metas_are (h_meta (pk_header p)) (h_metadata (pk_header p)) live;
  tv_refs : Forall (fun e => is_tree_meta e -> zlen (e_val e) = 32 /\
     In (e_ref e) (map (fun e : parth * bytes => p_id (fst e)) es) /\ part_id_to_hash_tree_id (e_ref e) <> 0) live;
  tv_trees : trees_verified sha p es live;
  tv_current : hash_current sha p es }.

Theorem tree_inv_verifies sha p es live : good_hash sha -> tree_inv sha p es live ->
  verify_payload sha (pk_header p) (file_rd (pk_file p)) 4096 = Ok tt.
Proof.
  intros G [H P Hs M R T D].
  assert (Tb : h_parts (pk_header p) = table (map fst es)) by (unfold table; rewrite map_length; apply (ho_table _ _ H)).
  assert (B : zlen (concat (map snd es)) < 2^63).
  { pose proof (ho_bound _ _ H) as B. rewrite (ho_file _ _ H), zlen_app, zlen_enc_header in B by apply (ho_wf _ _ H). lia. }
  assert (Sz : sizes_ok (h_parts (pk_header p))).
  { rewrite Tb. apply sizes_of; auto; [apply (ho_sizes _ _ H)|eapply wf_parts_app; [apply (ho_wf _ _ H)|apply (ho_table _ _ H)]]. }
  apply verify_payload_ok; auto; [apply (ho_wf _ _ H)|].
  destruct (payload_of_contents (pk_file p) (enc_header (pk_header p)) es []) as [P1 P2].
  - apply zlen_enc_header. apply (ho_wf _ _ H).
  - rewrite app_nil_r. apply (ho_file _ _ H).
  - apply (ho_sizes _ _ H).
  - apply (ho_nonzero _ _ H).
  - rewrite <- Tb in P1, P2. split; [exact Hs|]. split; [exact P1|]. split; [rewrite P2; exact D|].
    apply (trees_iff sha p es live); auto.
    + unfold tree_meta_sized. eapply Forall_impl; [|exact R]. cbn. intros e X Y. now destruct (X Y).
    + intros e root He Hr. rewrite Forall_forall in R. destruct (R _ Hr) as (_ & _ & X); [right; reflexivity|]. exact X.
Qed.

Lemma refs_grow (es new : list (parth * bytes)) live :
  Forall (fun e => is_tree_meta e -> zlen (e_val e) = 32 /\
     In (e_ref e) (map (fun e : parth * bytes => p_id (fst e)) es) /\ part_id_to_hash_tree_id (e_ref e) <> 0) live ->
  Forall (fun e => is_tree_meta e -> zlen (e_val e) = 32 /\
     In (e_ref e) (map (fun e : parth * bytes => p_id (fst e)) (es ++ new)) /\ part_id_to_hash_tree_id (e_ref e) <> 0) live.
Proof.
  intros R. eapply Forall_impl; [|exact R]. cbn. intros e X Y. destruct (X Y) as (A & B & C). split; auto. split; auto.
  rewrite map_app. apply in_or_app. now left.
Qed.

(* a plain add keeps every tree verifiable *)
Theorem add_file_tree_inv sha p es live data name flags : good_hash sha -> tree_inv sha p es live ->
  bytes_ok name -> bpak_id name <> 0 -> ~ In (bpak_id name) (map (fun e : parth * bytes => p_id (fst e)) es) -> (length es < 32)%nat ->
  0 <= flags < 256 -> Z.testbit flags 1 = false -> zlen (pk_file p) + zlen data + 512 <= 2^63 ->
  let e := (new_part p (bpak_id name) data flags, data ++ zeros (padding (zlen data))) in
  exists p', pkg_add_file sha p data name flags = (p', Ok tt) /\ tree_inv sha p' (es ++ [e]) live /\
    same_besides_parts (pk_header p) (pk_header p').
Proof.
  intros G I Hnm Hid Hnin Hl Hfl Hft Hb e. pose proof I as [H P Hs M R T D].
  destruct (add_file_ok sha p es data name flags) as (p' & E & H' & S & D'); auto.
  exists p'. split; [exact E|]. split; [|exact S].
  assert (Em : h_meta (pk_header p') = h_meta (pk_header p)) by (rewrite S; reflexivity).
  assert (Ed : h_metadata (pk_header p') = h_metadata (pk_header p)) by (rewrite S; reflexivity).
  constructor; auto.
  - apply Forall_app. split; auto.
  - rewrite S. exact Hs.
  - rewrite Em, Ed. exact M.
  - now apply refs_grow.
  - rewrite <- (app_nil_r live). eapply trees_grow; eauto.
    intros x root [<-|[]] Hr. rewrite app_nil_r in Hr. rewrite Forall_forall in R.
    destruct (R _ Hr) as (_ & X & _); [right; reflexivity|]. elim Hnin. exact X.
Qed.

(* ---- adding a file with its tree ---- *)
Definition tree_part (p : pkg) (name data tree : bytes) (flags : Z) : parth :=
  mkPart (part_name_to_hash_tree_id name) (zlen tree) (zlen (pk_file p) + zlen data) 0 0 flags 0.
Theorem add_merkle_tree_inv sha p es live data name salt flags : good_hash sha -> tree_inv sha p es live ->
  bytes_ok name -> bpak_id name <> 0 -> part_name_to_hash_tree_id name <> 0 ->
  ~ In (bpak_id name) (map (fun e : parth * bytes => p_id (fst e)) es) ->
  ~ In (part_name_to_hash_tree_id name) (map (fun e : parth * bytes => p_id (fst e)) es) ->
  part_name_to_hash_tree_id name <> bpak_id name ->
  (length es <= 30)%nat -> (length live <= 30)%nat -> meta_end live + 64 <= 1920 ->
  0 <= flags < 256 -> Z.testbit flags 1 = false ->
  0 < zlen data <= 2^33 -> zlen data mod 4096 = 0 -> zlen salt = 32 -> bytes_ok salt ->
  zlen (pk_file p) + zlen data + 2^40 <= 2^63 ->
  exists p' ls, hash_levels sha salt data ls /\
    pkg_add_file_with_merkle_tree sha p data name salt flags = (p', Ok tt) /\
    tree_inv sha p' (es ++ [(new_part p (bpak_id name) data flags, data);
                            (tree_part p name data (hash_tree ls) flags, hash_tree ls)])
      (live ++ [mkEntry ID_MERKLE_SALT (bpak_id name) salt;
                mkEntry ID_MERKLE_ROOT_HASH (bpak_id name) (root_hash sha salt data ls)]) /\
    same_besides_parts_meta (pk_header p) (pk_header p') /\
    pkg_extract_file p' (bpak_id name) = (Some data, Ok tt) /\
    pkg_extract_file p' (part_name_to_hash_tree_id name) = (Some (hash_tree ls), Ok tt).
Proof.
  intros G I Hnm Hid Htid Hnin Hnin2 Hne Hl Hll Hme Hfl Hft Hn Ha Hsl Bs Hb.
  destruct (hash_levels_total sha salt data G ltac:(lia) Ha) as (ls & Hls & _).
  pose proof I as [H P Hs M R T D]. pose proof (zlen_nonneg (pk_file p)) as Hpf.
  (* step 1: the data part *)
  destruct (add_file_ok sha p es data name flags) as (p1 & E1 & H1 & S1 & D1); auto; try lia.
  assert (Pad : padding (zlen data) = 0).
  { unfold padding. apply Z.mod_opp_l_z; [lia|]. change 4096 with (512 * 8) in Ha. lia. }
  rewrite Pad in *. change (zeros 0) with (@nil Z) in *. rewrite app_nil_r in *.
  set (q := new_part p (bpak_id name) data flags) in *. set (es1 := es ++ [(q, data)]) in *.
  assert (Pl1 : plain es1).
  { apply Forall_app. split; [exact P|]. constructor; [exact Hft|constructor]. }
  pose proof (append_offset_spec p1 es1 H1 Pl1) as Off1.
  assert (F0 : zlen (pk_file p) = 4096 + zlen (concat (map snd es))).
  { rewrite (ho_file _ _ H), zlen_app, zlen_enc_header by apply (ho_wf _ _ H). reflexivity. }
  assert (F1 : zlen (pk_file p1) = zlen (pk_file p) + zlen data).
  { rewrite (ho_file _ _ H1), zlen_app, zlen_enc_header by apply (ho_wf _ _ H1). unfold es1.
    rewrite map_app, concat_app, zlen_app. cbn [map concat snd]. rewrite app_nil_r. lia. }
  (* step 2: the tree *)
  destruct (build_tree_ok sha data salt ls G Hn Ha Hsl Hls) as (Eb & Lt & At).
  (* step 3: the metadata *)
  pose proof (bpak_id_bound name Hnm) as Bid.
  assert (Em1 : h_meta (pk_header p1) = h_meta (pk_header p)) by (rewrite S1; reflexivity).
  assert (Ed1 : h_metadata (pk_header p1) = h_metadata (pk_header p)) by (rewrite S1; reflexivity).
  assert (Rn : forall k v, (k = ID_MERKLE_SALT \/ k = ID_MERKLE_ROOT_HASH) ->
     forall r, ~ In r (map (fun e : parth * bytes => p_id (fst e)) es) -> ~ In (mkEntry k r v) live).
  { intros k v Hk r Hr X. rewrite Forall_forall in R. destruct (R _ X) as (_ & Y & _); [|elim Hr; exact Y].
    destruct Hk as [->| ->]; [left|right]; reflexivity. }
  assert (Kn : forall k, (k = ID_MERKLE_SALT \/ k = ID_MERKLE_ROOT_HASH) -> ~ In (k, bpak_id name) (map e_key live)).
  { intros k Hk X. apply in_map_iff in X as ([i r v] & Ex & X). unfold e_key in Ex. cbn [e_id e_ref] in Ex.
    injection Ex as -> ->. exact (Rn _ _ Hk _ Hnin X). }
  destruct (add_meta_bytes_ok (pk_header p1) live ID_MERKLE_SALT (bpak_id name) salt) as (h2 & E2 & W2 & Sm2 & M2); auto; try lia.
  { unfold ID_MERKLE_SALT. lia. }
  { apply (ho_wf _ _ H1). }
  { rewrite Em1, Ed1. exact M. }
  set (root := root_hash sha salt data ls) in *.
  assert (Lroot : zlen root = 32 /\ bytes_ok root).
  { unfold root, root_hash. destruct (zlen data =? 4096); exact (G 1 _ eq_refl). }
  destruct (add_meta_bytes_ok h2 (live ++ [mkEntry ID_MERKLE_SALT (bpak_id name) salt]) ID_MERKLE_ROOT_HASH (bpak_id name) root)
    as (h3 & E3 & W3 & Sm3 & M3); auto; try lia; try tauto.
  { unfold ID_MERKLE_ROOT_HASH. lia. }
  { rewrite map_app. intros X. apply in_app_or in X as [X|X]; [exact (Kn _ ltac:(auto) X)|].
    cbn [map e_key e_id e_ref] in X. destruct X as [X|[]]. discriminate X. }
  { rewrite app_length. cbn [length]. lia. }
  { rewrite meta_end_app. cbn [meta_end e_val]. rewrite Hsl. unfold align8. lia. }
  rewrite <- app_assoc in M3. cbn [app] in M3.
  (* step 4: the tree part *)
  pose proof (same_but_meta_trans _ _ _ Sm2 Sm3) as Sm.
  set (p2 := mkPkg h3 (enc_header h3 ++ concat (map snd es1))).
  assert (H2 : holds p2 es1).
  { destruct H1 as [A1 A2 A3 A4 A5 A6 A7 A8].
    constructor; cbn [p2 pk_header pk_file]; auto.
    - rewrite Sm. exact A3.
    - rewrite zlen_app, zlen_enc_header by auto. rewrite A7, zlen_app, zlen_enc_header in A8 by auto. exact A8. }
  assert (F2 : zlen (pk_file p2) = zlen (pk_file p1)).
  { unfold p2. cbn [pk_file]. rewrite (ho_file _ _ H1), !zlen_app, !zlen_enc_header by (auto; apply (ho_wf _ _ H1)). reflexivity. }
  pose proof (add_part_holds p2 es1 (part_name_to_hash_tree_id name) H2 Htid) as Ap.
  change (pk_header p2) with h3 in Ap.
  assert (Nin1 : ~ In (part_name_to_hash_tree_id name) (map (fun e : parth * bytes => p_id (fst e)) es1)).
  { unfold es1. rewrite map_app. intros X. apply in_app_or in X as [X|[X|[]]]; [exact (Hnin2 X)|]. elim Hne. symmetry. exact X. }
  replace (existsb _ es1) with false in Ap.
  2:{ symmetry. apply not_true_is_false. intros X. apply existsb_exists in X as (x & Hx & E).
      elim Nin1. apply Z.eqb_eq in E. rewrite <- E. now apply (in_map (fun e : parth * bytes => p_id (fst e))). }
  assert (Ll1 : length es1 = S (length es)) by (unfold es1; rewrite app_length; cbn [length]; lia).
  destruct (Nat.leb_spec 32 (length es1)); [lia|].
  assert (Bt : 0 <= part_name_to_hash_tree_id name < 2^32).
  { rewrite hash_tree_id_name. apply bpak_id_bound. apply bytes_ok_app. split; auto. apply bytes_of_ok. }
  set (t := tree_part p name data (hash_tree ls) flags) in *.
  destruct (append_commit_gen sha p2 es1 t (hash_tree ls) (pk_file p1 ++ hash_tree ls)) as (p' & E4 & H4 & S4 & D4); auto; try lia.
  - change (pk_header p2) with h3. rewrite Sm. unfold same_but_meta in Sm. rewrite S1. exact Hs.
  - unfold t, tree_part. apply wf_new_part; try lia.
  - unfold t, tree_part, stored_size. cbn [p_flags p_size p_pad_bytes]. rewrite Hft. lia.
  - rewrite zlen_app. lia.
  - rewrite (ho_file _ _ H1), <- app_assoc, zdrop_app_r by (rewrite zlen_enc_header by apply (ho_wf _ _ H1); lia).
    rewrite zlen_enc_header by apply (ho_wf _ _ H1). rewrite Z.sub_diag, zdrop_0. reflexivity.
  - assert (Ees : es1 ++ [(t, hash_tree ls)] = es ++ [(q, data); (t, hash_tree ls)]) by (unfold es1; now rewrite <- app_assoc).
    pose proof (eq_ind _ (fun x => holds p' x) H4 _ Ees) as H4x. pose proof (eq_ind _ (fun x => hash_current sha p' x) D4 _ Ees) as D4x.
    clear H4 D4. rename H4x into H4. rename D4x into D4. cbv beta in H4, D4.
    exists p', ls. split; [exact Hls|].
    assert (Eadd : pkg_add_file_with_merkle_tree sha p data name salt flags = (p', Ok tt)).
    { unfold pkg_add_file_with_merkle_tree. rewrite E1, Eb, E2, E3, Ap, Off1.
      pose proof (filled_header p2 es1 (part_name_to_hash_tree_id name) (zlen (hash_tree ls)) (zlen (pk_file p1)) 0 flags H2 ltac:(lia)) as Fh.
      change (pk_header p2) with h3 in Fh. rewrite Fh. clear Fh.
      rewrite s64_small by (pose proof (ho_bound _ _ H1); pose proof (zlen_nonneg (pk_file p1)); lia).
      destruct (Z.ltb_spec (zlen (pk_file p1)) 0); [pose proof (zlen_nonneg (pk_file p1)); lia|].
      rewrite fwrite_at_end by reflexivity. rewrite <- E4. unfold t, tree_part. rewrite F1. reflexivity. }
    split; [exact Eadd|].
    assert (Etn : part_name_to_hash_tree_id name = part_id_to_hash_tree_id (bpak_id name)) by (unfold part_name_to_hash_tree_id; reflexivity).
    assert (Et : p_id t = part_name_to_hash_tree_id name) by (unfold t, tree_part; cbn [p_id]; reflexivity).
    assert (Eq : p_id q = bpak_id name) by (unfold q, new_part; cbn [p_id]; reflexivity).
    assert (Em4 : h_meta (pk_header p') = h_meta h3) by (rewrite S4; reflexivity).
    assert (Ed4 : h_metadata (pk_header p') = h_metadata h3) by (rewrite S4; reflexivity).
    assert (Sall : same_besides_parts_meta (pk_header p) (pk_header p')).
    { unfold same_besides_parts_meta. unfold same_besides_parts in S4, S1. unfold same_but_meta in Sm.
      rewrite Em4, Ed4. rewrite S4 at 1. change (pk_header p2) with h3.
      rewrite Sm at 1. rewrite S1 at 1. reflexivity. }
    assert (Xd : pkg_extract_file p' (bpak_id name) = (Some data, Ok tt)).
    { rewrite <- Eq. apply (extract_at p' es q data 0 [(t, hash_tree ls)]); auto.
      change (zeros 0) with (@nil Z). rewrite app_nil_r. exact H4. }
    assert (Xt : pkg_extract_file p' (part_name_to_hash_tree_id name) = (Some (hash_tree ls), Ok tt)).
    { rewrite <- Et. apply (extract_at p' (es ++ [(q, data)]) t (hash_tree ls) 0 []); auto.
      change (zeros 0) with (@nil Z). rewrite app_nil_r, <- app_assoc. exact H4. }
    split; [|split; [exact Sall|split; [exact Xd|exact Xt]]].
    constructor; auto.
    + apply Forall_app. split; [exact P|]. constructor; [exact Hft|constructor; [exact Hft|constructor]].
    + rewrite Sall. exact Hs.
    + rewrite Em4, Ed4. exact M3.
    + apply Forall_app. split; [now apply refs_grow|].
      assert (Hin : In (bpak_id name) (map (fun e : parth * bytes => p_id (fst e)) (es ++ [(q, data); (t, hash_tree ls)]))).
      { rewrite map_app. apply in_or_app. right. left. exact Eq. }
      constructor; [|constructor; [|constructor]]; intros _; cbn [e_val e_ref].
      * split; [exact Hsl|]. split; [exact Hin|]. rewrite <- Etn. exact Htid.
      * split; [apply Lroot|]. split; [exact Hin|]. rewrite <- Etn. exact Htid.
    + eapply trees_grow; eauto.
      * intros e rt He X. assert (Y : p_id (fst e) = bpak_id name).
        { destruct X as [X|[X|[]]]; [discriminate X|]. injection X as Y _. now symmetry. }
        apply Hnin. rewrite <- Y. now apply (in_map (fun e : parth * bytes => p_id (fst e))).
      * intros e rt He X. destruct He as [<-|[<-|[]]]; cbn [fst] in *.
        -- rewrite Eq in *.
           assert (rt = root) as ->.
           { apply in_app_or in X as [X|X]; [elim (Rn _ _ ltac:(auto) _ Hnin X)|].
             destruct X as [X|[X|[]]]; [discriminate X|]. injection X as X. symmetry. exact X. }
           exists salt, (t, hash_tree ls). split; [apply in_or_app; right; left; reflexivity|].
           split; [apply in_or_app; right; right; left; reflexivity|]. cbn [fst]. split; [rewrite Et; exact Etn|].
           rewrite (part_offset_at p' es q data [(t, hash_tree ls)] H4).
           assert (H4' : holds p' ((es ++ [(q, data)]) ++ (t, hash_tree ls) :: [])) by (rewrite <- app_assoc; exact H4).
           rewrite (part_offset_at p' (es ++ [(q, data)]) t (hash_tree ls) [] H4').
           rewrite part_size_stored.
           2:{ apply wf_new_part; lia. }
           2:{ unfold q, new_part, stored_size. cbn [p_flags p_size p_pad_bytes]. rewrite Hft, Pad. lia. }
           replace (stored_size q) with (zlen data).
           2:{ unfold q, new_part, stored_size. cbn [p_flags p_size p_pad_bytes]. rewrite Hft, Pad. lia. }
           pose proof (ho_file _ _ H4) as F4.
           rewrite map_app, concat_app in F4. cbn [map snd concat] in F4. rewrite app_nil_r in F4.
           pose proof (zlen_enc_header _ (ho_wf _ _ H4)) as L4. pose proof (zlen_nonneg (concat (map snd es))).
           assert (LP : zlen ((enc_header (pk_header p') ++ concat (map snd es)) ++ data) =
                        4096 + zlen (concat (map snd (es ++ [(q, data)])))).
           { rewrite map_app, concat_app. cbn [map snd concat]. rewrite app_nil_r, !zlen_app. lia. }
           rewrite <- LP. apply (verify_genuine sha (pk_file p') _ []); auto; try lia.
           ++ rewrite app_nil_r, F4, <- !app_assoc. reflexivity.
           ++ rewrite F4, !zlen_app. lia.
           ++ rewrite F4, app_assoc. apply slice_app_exact; [rewrite zlen_app; lia|reflexivity].
        -- exfalso. fold t in X. rewrite Et in X.
           apply in_app_or in X as [X|X]; [exact (Rn _ _ ltac:(auto) _ Hnin2 X)|].
           destruct X as [X|[X|[]]]; [discriminate X|]. injection X as Y _. elim Hne. now symmetry.
Qed.

(* ---- any sequence of adds, with and without trees ---- *)
Record titem := mkItem { ti_name : bytes; ti_data : bytes; ti_flags : Z; ti_salt : option bytes }.
Definition run_add (sha : hashfn) (p : pkg) (it : titem) : pkg * res unit :=
  match ti_salt it with
  | None => pkg_add_file sha p (ti_data it) (ti_name it) (ti_flags it)
  | Some s => pkg_add_file_with_merkle_tree sha p (ti_data it) (ti_name it) s (ti_flags it)
  end.
Fixpoint run_adds (sha : hashfn) (p : pkg) (its : list titem) : pkg * list (res unit) :=
  match its with
  | [] => (p, [])
  | it :: r => let (p1, x) := run_add sha p it in let (p2, xs) := run_adds sha p1 r in (p2, x :: xs)
  end.
Definition item_ids (it : titem) : list Z :=
  bpak_id (ti_name it) :: match ti_salt it with None => [] | Some _ => [part_name_to_hash_tree_id (ti_name it)] end.
Definition item_metas (it : titem) : nat := match ti_salt it with None => 0 | Some _ => 2 end.
Definition item_ok (it : titem) : Prop :=
  bytes_ok (ti_name it) /\ Forall (fun i => i <> 0) (item_ids it) /\ 0 <= ti_flags it < 256 /\ Z.testbit (ti_flags it) 1 = false /\
  match ti_salt it with
  | None => True
  | Some s => 0 < zlen (ti_data it) <= 2^33 /\ zlen (ti_data it) mod 4096 = 0 /\ zlen s = 32 /\ bytes_ok s
  end.
Definition item_cost (it : titem) : Z := zlen (ti_data it) + 2^40.

Lemma holds_len p es : holds p es -> zlen (pk_file p) = 4096 + zlen (concat (map snd es)).
Proof. intros H. rewrite (ho_file _ _ H), zlen_app, zlen_enc_header by apply (ho_wf _ _ H). reflexivity. Qed.

Lemma nodup_left {A} (a b : list A) : NoDup (a ++ b) -> NoDup a.
Proof.
  induction a as [|x a IH]; intros N; [constructor|]. inversion N as [|? ? Nx Nr]; subst. constructor; auto.
  intros X. apply Nx. apply in_or_app. now left.
Qed.
Lemma nodup_right {A} (a b : list A) : NoDup (a ++ b) -> NoDup b.
Proof. induction a as [|x a IH]; intros N; [exact N|]. inversion N; auto. Qed.
Lemma run_add_step sha p es live it : good_hash sha -> tree_inv sha p es live -> item_ok it ->
  NoDup (map (fun e : parth * bytes => p_id (fst e)) es ++ item_ids it) ->
  (length es + length (item_ids it) <= 32)%nat -> (length live + item_metas it <= 32)%nat ->
  meta_end live = 32 * Z.of_nat (length live) -> zlen (pk_file p) + item_cost it <= 2^63 ->
  exists p' new more q, run_add sha p it = (p', Ok tt) /\ tree_inv sha p' (es ++ new) (live ++ more) /\
    map (fun e : parth * bytes => p_id (fst e)) new = item_ids it /\
    In (q, ti_data it ++ zeros (p_pad_bytes q)) new /\ p_id q = bpak_id (ti_name it) /\ p_flags q = ti_flags it /\
    length more = item_metas it /\ meta_end (live ++ more) = 32 * Z.of_nat (length (live ++ more)) /\
    zlen (pk_file p') <= zlen (pk_file p) + item_cost it.
Proof.
  intros G I (On & Oz & Of & Ot & Os) Nd Hl Hm He Hc. unfold run_add, item_ids, item_metas, item_cost in *.
  pose proof (zlen_nonneg (ti_data it)) as Hd.
  assert (N1 : forall x, In x (item_ids it) -> ~ In x (map (fun e : parth * bytes => p_id (fst e)) es)).
  { intros x Hx Hy. apply in_split in Hx as (a & b & Ex). fold (item_ids it) in Nd. rewrite Ex, app_assoc in Nd.
    apply NoDup_remove_2 in Nd. apply Nd. apply in_or_app. left. apply in_or_app. now left. }
  pose proof (holds_len p es (tv_holds _ _ _ _ I)) as L0. unfold item_ids in N1.
  destruct (ti_salt it) as [s|]; cbn [length] in *.
  - destruct Os as (S1 & S2 & S3 & S4). inversion Oz as [|? ? Oz1 Oz2]; subst. inversion Oz2 as [|? ? Oz3 _]; subst.
    assert (Ne : part_name_to_hash_tree_id (ti_name it) <> bpak_id (ti_name it)).
    { apply nodup_right in Nd. inversion Nd as [|? ? Nx _]; subst. intros X. apply Nx. left. exact X. }
    destruct (add_merkle_tree_inv sha p es live (ti_data it) (ti_name it) s (ti_flags it)) as (p' & ls & Hls & E & I' & _); auto; try lia.
    { apply N1. left. reflexivity. }
    { apply N1. right. left. reflexivity. }
    exists p', [(new_part p (bpak_id (ti_name it)) (ti_data it) (ti_flags it), ti_data it);
                (tree_part p (ti_name it) (ti_data it) (hash_tree ls) (ti_flags it), hash_tree ls)],
       [mkEntry ID_MERKLE_SALT (bpak_id (ti_name it)) s;
        mkEntry ID_MERKLE_ROOT_HASH (bpak_id (ti_name it)) (root_hash sha s (ti_data it) ls)],
       (new_part p (bpak_id (ti_name it)) (ti_data it) (ti_flags it)).
    assert (Pad : padding (zlen (ti_data it)) = 0).
    { unfold padding. apply Z.mod_opp_l_z; [lia|]. change 4096 with (512 * 8) in S2. lia. }
    destruct (build_tree_ok sha (ti_data it) s ls G S1 S2 S3 Hls) as (_ & Lt & _).
    assert (Lr : zlen (root_hash sha s (ti_data it) ls) = 32).
    { unfold root_hash. destruct (zlen (ti_data it) =? 4096); exact (proj1 (G 1 _ eq_refl)). }
    split; [exact E|]. split; [exact I'|]. split; [cbn [map fst new_part tree_part p_id]; reflexivity|].
    split; [left; cbn [new_part p_pad_bytes]; rewrite Pad; change (zeros 0) with (@nil Z); now rewrite app_nil_r|].
    split; [cbn [new_part p_id]; reflexivity|]. split; [cbn [new_part p_flags]; reflexivity|]. split; [reflexivity|]. split.
    + rewrite meta_end_app. cbn [meta_end e_val]. rewrite S3, Lr. rewrite app_length. cbn [length].
      change (align8 32) with 32. lia.
    + pose proof (holds_len _ _ (tv_holds _ _ _ _ I')) as L1. rewrite map_app, concat_app, zlen_app in L1. cbn [map snd concat] in L1.
      rewrite app_nil_r, zlen_app in L1. lia.
  - inversion Oz as [|? ? Oz1 _]; subst.
    destruct (add_file_tree_inv sha p es live (ti_data it) (ti_name it) (ti_flags it)) as (p' & E & I' & _); auto; try lia.
    { apply N1. left. reflexivity. }
    exists p', [(new_part p (bpak_id (ti_name it)) (ti_data it) (ti_flags it), ti_data it ++ zeros (padding (zlen (ti_data it))))], [],
       (new_part p (bpak_id (ti_name it)) (ti_data it) (ti_flags it)).
    rewrite app_nil_r. pose proof (padding_range (zlen (ti_data it))).
    split; [exact E|]. split; [exact I'|]. split; [cbn [map fst new_part tree_part p_id]; reflexivity|].
    split; [left; cbn [new_part p_pad_bytes]; reflexivity|].
    split; [cbn [new_part p_id]; reflexivity|]. split; [cbn [new_part p_flags]; reflexivity|]. split; [reflexivity|]. split; [exact He|].
    pose proof (holds_len _ _ (tv_holds _ _ _ _ I')) as L1. rewrite map_app, concat_app, zlen_app in L1. cbn [map snd concat] in L1.
    rewrite app_nil_r, zlen_app, zlen_zeros in L1. lia.
Qed.

Definition items_cost (its : list titem) : Z := fold_right (fun it a => item_cost it + a) 0 its.
Lemma items_cost_nonneg its : 0 <= items_cost its.
Proof.
  induction its as [|it its IH]; [cbn; lia|]. unfold items_cost in *. cbn [fold_right]. unfold item_cost at 1.
  pose proof (zlen_nonneg (ti_data it)). lia.
Qed.

Lemma run_adds_ok sha its : good_hash sha -> forall p es live, tree_inv sha p es live -> Forall item_ok its ->
  NoDup (map (fun e : parth * bytes => p_id (fst e)) es ++ concat (map item_ids its)) ->
  (length es + length (concat (map item_ids its)) <= 32)%nat ->
  (length live + fold_right (fun it n => item_metas it + n)%nat 0%nat its <= 32)%nat ->
  meta_end live = 32 * Z.of_nat (length live) -> zlen (pk_file p) + items_cost its <= 2^63 ->
  exists p' new live', run_adds sha p its = (p', map (fun _ => Ok tt) its) /\ tree_inv sha p' (es ++ new) live' /\
    forall it, In it its -> exists q, In (q, ti_data it ++ zeros (p_pad_bytes q)) new /\ p_id q = bpak_id (ti_name it).
Proof.
  intros G. induction its as [|it its IH]; intros p es live I Ok Nd Hl Hm He Hc.
  - exists p, [], live. rewrite app_nil_r. split; [reflexivity|]. split; [exact I|]. intros it [].
  - inversion Ok as [|? ? O1 O2]; subst. cbn [map concat fold_right] in *. rewrite app_length in Hl.
    unfold items_cost in Hc. cbn [fold_right] in Hc. fold (items_cost its) in Hc. pose proof (items_cost_nonneg its).
    destruct (run_add_step sha p es live it) as (p1 & new & more & q & E & I1 & Ids & Inq & Eq & _ & Lm & He1 & L1); auto; try lia.
    { rewrite app_assoc in Nd. now apply nodup_left in Nd. }
    destruct (IH p1 (es ++ new) (live ++ more) I1 O2) as (p2 & new2 & live2 & E2 & I2 & X2).
    { rewrite map_app, Ids, <- app_assoc. exact Nd. }
    { rewrite app_length. apply (f_equal (@length Z)) in Ids. rewrite map_length in Ids. lia. }
    { rewrite app_length. lia. }
    { exact He1. }
    { lia. }
    exists p2, (new ++ new2), live2. cbn [run_adds]. rewrite E, E2, app_assoc. split; [reflexivity|]. split; [exact I2|].
    intros x [<-|Hx].
    + exists q. split; [apply in_or_app; now left|exact Eq].
    + destruct (X2 x Hx) as (q' & A & B). exists q'. split; [apply in_or_app; now right|exact B].
Qed.

Lemma fresh_tree_inv sha : good_hash sha ->
  tree_inv sha (mkPkg (fresh_header sha) (enc_header (fresh_header sha))) [] [].
Proof.
  intros G. destruct (fresh_inv sha G) as [(es & H & O & F) P V Hs M D]. inversion F; subst.
  constructor; auto.
  - constructor.
  - exact metas_are_init.
  - intros e root [].
Qed.

(* any list of files added to a fresh package, with or without trees *)
Theorem fresh_adds_verify sha its p0 : good_hash sha ->
  snd (pkg_open sha true []) = Ok p0 -> Forall item_ok its ->
  NoDup (concat (map item_ids its)) -> (length (concat (map item_ids its)) <= 32)%nat ->
  4096 + items_cost its <= 2^63 ->
  exists p, run_adds sha p0 its = (p, map (fun _ => Ok tt) its) /\
    verify_payload sha (pk_header p) (file_rd (pk_file p)) 4096 = Ok tt /\
    (forall it, In it its -> pkg_extract_file p (bpak_id (ti_name it)) = (Some (ti_data it), Ok tt)).
Proof.
  intros G Op Ok Nd Hl Hc. destruct (open_short sha [] G) as [_ E]; [cbn; lia|]. rewrite E in Op. cbn [snd app] in Op.
  injection Op as <-. pose proof (fresh_tree_inv sha G) as I0.
  assert (Hm : (fold_right (fun it n => item_metas it + n) 0 its <= length (concat (map item_ids its)))%nat).
  { clear. induction its as [|it its IH]; [cbn; lia|]. cbn [fold_right map concat]. rewrite app_length.
    assert (item_metas it <= length (item_ids it))%nat; [|lia].
    unfold item_metas, item_ids. destruct (ti_salt it); cbn [length]; lia. }
  destruct (run_adds_ok sha its G _ [] [] I0 Ok) as (p & new & live' & E2 & I2 & X); auto.
  - cbn [length]. lia.
  - cbn [pk_file]. rewrite zlen_enc_header by now apply fresh_wf. lia.
  - exists p. split; [exact E2|]. split; [eapply tree_inv_verifies; eauto|].
    intros it Hit. destruct (X it Hit) as (q & Hq & <-). cbn [app] in I2. pose proof I2 as [H2 P2 _ _ _ _ _].
    pose proof P2 as P3. unfold plain in P3. rewrite Forall_forall in P3. specialize (P3 _ Hq). cbn [fst] in P3.
    apply in_split in Hq as (a & b & ->). apply (extract_at p a q (ti_data it) (p_pad_bytes q) b); auto.
Qed.
