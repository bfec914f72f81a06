(* PropertiesPkg.v -- C25..C30, C45, C46.  Specification: PkgSpec.v.
   [good_hash sha]: the hash function returns digests of the right length.
   [holds p es]: the package's table lists the parts of [es] and its file is
   exactly the header followed by their stored bytes. *)
From Verif Require Import BaseLemmas HeaderModel HeaderSpec HeaderHistory CodecProofs PartProofs MetaProofs CrcModel CrcProofs HashModel
  MerkleModel MerkleSpec MerkleSizes MerkleApi VerifyModel VerifySpec VerifyProofs VerifySign VerifyWitness PkgModel PkgSpec PkgProofs PkgAdd
  PkgDelete PkgHistory PkgApi PkgTrees PkgMerkle PkgWitness.

(* ---- C25 ---- *)
(* false of the code for packages with transport-encoded parts *)
Theorem C25_add_then_extract_refuted : exists sha p es data name p' out, good_hash sha /\ holds p es /\
  valid_header (pk_header p) = Ok tt /\ pkg_add_file sha p data name 0 = (p', Ok tt) /\
  pkg_extract_file p' (bpak_id name) = (Some out, Ok tt) /\ out <> data.
Proof.
  exists toy_sha, tr_pkg. eexists. exists [1;2;3], fs_name, (fst (pkg_add_file toy_sha tr_pkg [1; 2; 3] fs_name 0)), [0;0;0].
  split; [exact toy_sha_good|]. split; [exact tr_holds|]. destruct add_to_transport_wrong as (A & B & C). split; [exact A|].
  split; [|split; [exact C|discriminate]]. revert B. destruct (pkg_add_file _ _ _ _ _). cbn [fst snd]. intros ->. reflexivity.
Qed.
Print Assumptions C25_add_then_extract_refuted.
(* missing: packages holding transport-encoded parts (refuted above) *)
Theorem C25_add_then_extract_partial : forall sha p es data name flags, good_hash sha -> holds p es -> plain es ->
  hash_supported (h_hash_kind (pk_header p)) = true ->
  bytes_ok name -> bpak_id name <> 0 -> ~ In (bpak_id name) (map (fun e : parth * bytes => p_id (fst e)) es) ->
  (length es < 32)%nat -> 0 <= flags < 256 -> Z.testbit flags 1 = false ->
  zlen (pk_file p) + zlen data + 512 <= 2^63 ->
  exists p', pkg_add_file sha p data name flags = (p', Ok tt) /\
    pkg_extract_file p' (bpak_id name) = (Some data, Ok tt).
Proof.
  intros sha p es data name flags G H P Hs Hnm Hid Hnin Hl Hfl Hft Hb.
  destruct (add_file_ok sha p es data name flags) as (p' & E & H' & _); auto. exists p'. split; [exact E|].
  assert (Eq : p_id (new_part p (bpak_id name) data flags) = bpak_id name) by (unfold new_part; cbn [p_id]; reflexivity).
  rewrite <- Eq. eapply (extract_at p' es _ data (padding (zlen data)) []); auto.
Qed.
Print Assumptions C25_add_then_extract_partial.
(* the same for whole histories of a package created from an empty file: every
   return value and every extracted file is what an ordered list of files
   gives, and the package file is exactly those files *)
Theorem C25_package_is_a_list_of_files_partial : forall sha os p0, good_hash sha ->
  snd (pkg_open sha true []) = Ok p0 -> Forall pkg_op_ok os -> 4096 + pkg_ops_cost os <= 2^63 ->
  let '(p, xs) := run_pkg_ops sha p0 os in
  let '(fs, ys) := spec_pkg_ops bpak_id [] os in
  xs = ys /\ pkg_inv sha p fs.
Proof.
  intros sha os p0 G Op Ok Hc. destruct (open_short sha [] G) as [_ E]; [cbn; lia|]. rewrite E in Op. cbn [snd app] in Op.
  injection Op as <-. apply pkg_history; auto; [now apply fresh_inv|]. cbn [pk_file]. rewrite zlen_enc_header by now apply fresh_wf. lia.
Qed.
Print Assumptions C25_package_is_a_list_of_files_partial.
Example C25_instance : Forall pkg_op_ok pw_ops /\ 4096 + pkg_ops_cost pw_ops <= 2^63 /\
  snd (spec_pkg_ops bpak_id [] pw_ops) =
    [(None, Ok tt); (None, Ok tt); (None, Err E_EXISTS); (None, Ok tt); (None, Ok tt); (Some (repeat 6 (Z.to_nat 512)), Ok tt);
     (None, Err E_NOT_FOUND)].
Proof. destruct pw_ops_ok as [A B]. split; [exact A|]. split; [exact B|]. vm_compute. reflexivity. Qed.

(* ---- C26 ---- *)
Theorem C26_add_preserves_refuted : exists p es data name q, holds p es /\
  valid_header (pk_header p) = Ok tt /\ snd (pkg_add_file toy_sha p data name 0) = Ok tt /\
  let p' := fst (pkg_add_file toy_sha p data name 0) in
  get_part (pk_header p') (bpak_id name) = Ok 1%nat /\ nth_error (h_parts (pk_header p')) 1 = Some q /\
  slice (part_offset (pk_header p') q) (zlen data) (pk_file p') <> data.
Proof.
  exists tr_pkg. eexists. exists [1;2;3], fs_name. eexists. split; [exact tr_holds|]. destruct add_to_transport_wrong as (A & B & _).
  split; [exact A|]. split; [exact B|]. cbv zeta. split; [vm_compute; reflexivity|]. split; [vm_compute; reflexivity|].
  vm_compute. discriminate.
Qed.
Print Assumptions C26_add_preserves_refuted.
(* missing: packages holding transport-encoded parts *)
Theorem C26_add_preserves_partial : forall sha p es data name flags, good_hash sha -> holds p es -> plain es ->
  hash_supported (h_hash_kind (pk_header p)) = true ->
  bytes_ok name -> bpak_id name <> 0 -> ~ In (bpak_id name) (map (fun e : parth * bytes => p_id (fst e)) es) ->
  (length es < 32)%nat -> 0 <= flags < 256 -> Z.testbit flags 1 = false ->
  zlen (pk_file p) + zlen data + 512 <= 2^63 ->
  exists p' q, pkg_add_file sha p data name flags = (p', Ok tt) /\
    holds p' (es ++ [(q, data ++ zeros (padding (zlen data)))]) /\
    p_id q = bpak_id name /\ p_size q = zlen data /\ p_pad_bytes q = padding (zlen data) /\ p_flags q = flags /\
    p_offset q = zlen (pk_file p) /\
    zlen (pk_file p') = zlen (pk_file p) + zlen data + padding (zlen data) /\
    same_besides_parts (pk_header p) (pk_header p') /\ hash_current sha p' (es ++ [(q, data ++ zeros (padding (zlen data)))]) /\
    (forall e, In e es -> part_offset (pk_header p') (fst e) = part_offset (pk_header p) (fst e)).
Proof.
  intros sha p es data name flags G H P Hs Hnm Hid Hnin Hl Hfl Hft Hb.
  destruct (add_file_ok sha p es data name flags) as (p' & E & H' & S & D); auto.
  exists p', (new_part p (bpak_id name) data flags).
  split; [exact E|]. split; [exact H'|]. unfold new_part at 1 2 3 4 5. cbn [p_id p_size p_pad_bytes p_flags p_offset].
  split; [reflexivity|]. split; [reflexivity|]. split; [reflexivity|]. split; [reflexivity|]. split; [reflexivity|].
  split; [|split; [exact S|split; [exact D|]]].
  - rewrite (holds_len _ _ H'), (holds_len _ _ H), map_app, concat_app, zlen_app. cbn [map snd concat].
    rewrite app_nil_r, zlen_app, zlen_zeros. pose proof (padding_range (zlen data)). lia.
  - intros e He. eapply part_offset_grow; eauto.
Qed.
Print Assumptions C26_add_preserves_partial.
Theorem C26_failed_add_changes_nothing : forall sha p es data name flags, holds p es -> bpak_id name <> 0 ->
  (In (bpak_id name) (map (fun e : parth * bytes => p_id (fst e)) es) -> pkg_add_file sha p data name flags = (p, Err E_EXISTS)) /\
  (~ In (bpak_id name) (map (fun e : parth * bytes => p_id (fst e)) es) -> length es = 32%nat ->
     pkg_add_file sha p data name flags = (p, Err E_NO_SPACE_LEFT)).
Proof. exact add_file_fails. Qed.
Print Assumptions C26_failed_add_changes_nothing.
Example C26_instance : holds fm_pkg [(mkPart 10 512 4096 0 0 0 0, repeat 1 (Z.to_nat 512))] /\
  plain [(mkPart 10 512 4096 0 0 0 0, repeat 1 (Z.to_nat 512))] /\
  hash_supported (h_hash_kind (pk_header fm_pkg)) = true /\ bpak_id fs_name <> 0 /\ bpak_id fs_name <> 10.
Proof.
  split; [exact fm_holds|]. split; [repeat constructor|]. split; [reflexivity|]. split; vm_compute; discriminate.
Qed.

(* ---- C27 ---- *)
(* false of the code: (1) undefined behaviour with a full metadata table *)
Theorem C27_delete_part_full_metadata_refuted : forall sha p (a : list (parth * bytes)) q c b j m, holds p (a ++ (q, c) :: b) ->
  Forall (fun m => m_id m <> 0) (h_meta (pk_header p)) -> nth_error (h_meta (pk_header p)) j = Some m -> m_ref m = p_id q ->
  snd (pkg_delete_part sha p (p_id q) true) = UB.
Proof. exact delete_part_full_meta. Qed.
Print Assumptions C27_delete_part_full_metadata_refuted.
(* (2) never returns when the file has bytes after the last part, or lacks the
   last part's data *)
Theorem C27_delete_part_terminates_refuted : exists h f1 f2 id, valid_header h = Ok tt /\
  (exists data, f1 = enc_header h ++ data ++ [9] /\ zlen data = sum_sizes (used (h_parts h))) /\
  (exists data, f2 = enc_header h ++ data) /\
  snd (pkg_delete_part toy_sha (mkPkg h f1) id false) = Stuck /\
  (forall fuel, move_down_loop fuel f1 4608 4096 512 = Stuck) /\
  snd (pkg_delete_part toy_sha (mkPkg h f2) id false) = Stuck /\
  (forall fuel, move_down_loop fuel f2 4608 4096 512 = Stuck).
Proof.
  exists dl_header, (pk_file dl_long), (pk_file dl_short), 10. destruct delete_long_hangs as (A & B & C & D & E).
  split; [exact A|]. split; [exists (repeat 1 (Z.to_nat 1024)); split; [reflexivity|vm_compute; reflexivity]|].
  split; [exists (repeat 1 (Z.to_nat 512)); reflexivity|]. split; [exact B|]. split; [exact C|]. split; [exact D|exact E].
Qed.
Print Assumptions C27_delete_part_terminates_refuted.
(* missing: full metadata tables; files that are not exactly header + parts.
   [moved n]: the same part and bytes with its offset field lowered by n;
   [purge]: removal of the part's metadata entries (see C06 for the values of
   the entries behind them) *)
Theorem C27_delete_part_partial : forall sha p (a : list (parth * bytes)) q c b rm live, good_hash sha -> holds p (a ++ (q, c) :: b) ->
  hash_supported (h_hash_kind (pk_header p)) = true ->
  (rm = true -> metas_are (h_meta (pk_header p)) (h_metadata (pk_header p)) live /\ (length live < 32)%nat /\
                no_ghost_refs (h_meta (pk_header p))) ->
  exists p', pkg_delete_part sha p (p_id q) rm = (p', Ok tt) /\
    holds p' (a ++ map (moved (zlen c)) b) /\ hash_current sha p' (a ++ map (moved (zlen c)) b) /\
    (rm = false -> same_besides_parts (pk_header p) (pk_header p')) /\
    (rm = true -> same_besides_parts_meta (pk_header p) (pk_header p') /\
       metas_are (h_meta (pk_header p')) (h_metadata (pk_header p')) (purge (fun e => e_ref e =? p_id q) 1920 live) /\
       no_ghost_refs (h_meta (pk_header p'))).
Proof. exact delete_part_ok. Qed.
Print Assumptions C27_delete_part_partial.
Theorem C27_delete_missing_part : forall sha p es id rm, holds p es -> id <> 0 ->
  ~ In id (map (fun e : parth * bytes => p_id (fst e)) es) -> pkg_delete_part sha p id rm = (p, Err E_NOT_FOUND).
Proof. exact delete_part_missing. Qed.
Print Assumptions C27_delete_missing_part.
Example C27_instance : holds fm_pkg ([] ++ (mkPart 10 512 4096 0 0 0 0, repeat 1 (Z.to_nat 512)) :: []) /\
  Forall (fun m => m_id m <> 0) (h_meta (pk_header fm_pkg)) /\
  (exists m, nth_error (h_meta (pk_header fm_pkg)) 0 = Some m /\ m_ref m = 10) /\
  snd (pkg_delete_part toy_sha fm_pkg 10 false) = Ok tt /\ zlen (pk_file (fst (pkg_delete_part toy_sha fm_pkg 10 false))) = 4096.
Proof.
  split; [exact fm_holds|]. split; [vm_compute; repeat constructor; discriminate|]. split; [eexists; split; reflexivity|].
  split; vm_compute; reflexivity.
Qed.

(* ---- C28 ---- *)
(* missing: full metadata tables; and with metadata removal the remaining
   values are those of [purge] (C06) *)
Theorem C28_delete_all_partial : forall sha p rm live, good_hash sha -> wf_header (pk_header p) -> 4096 <= zlen (pk_file p) ->
  hash_supported (h_hash_kind (pk_header p)) = true ->
  (rm = true -> metas_are (h_meta (pk_header p)) (h_metadata (pk_header p)) live /\ (length live < 32)%nat /\
                no_ghost_refs (h_meta (pk_header p))) ->
  exists p', pkg_delete_all_parts sha p rm = (p', Ok tt) /\
    holds p' [] /\ zlen (pk_file p') = 4096 /\ hash_current sha p' [] /\
    (rm = false -> same_besides_parts (pk_header p) (pk_header p')) /\
    (rm = true -> same_besides_parts_meta (pk_header p) (pk_header p') /\
       metas_are (h_meta (pk_header p')) (h_metadata (pk_header p')) (purge (fun e => negb (e_ref e =? 0)) 1920 live) /\
       no_ghost_refs (h_meta (pk_header p'))).
Proof. exact delete_all_ok. Qed.
Print Assumptions C28_delete_all_partial.
Example C28_instance : wf_header (pk_header fm_pkg) /\ 4096 <= zlen (pk_file fm_pkg) /\
  snd (pkg_delete_all_parts toy_sha fm_pkg true) = UB /\ snd (pkg_delete_all_parts toy_sha fm_pkg false) = Ok tt.
Proof.
  split; [apply (ho_wf _ _ fm_holds)|]. split; [vm_compute; discriminate|]. split; vm_compute; reflexivity.
Qed.

(* ---- C29 ---- *)
(* bpak_pkg_size leaves out the padding, bpak_pkg_installed_size includes it *)
Theorem C29_sizes_partial : forall sha p fs, pkg_inv sha p fs ->
  zlen (pk_file p) = 4096 + zlen (concat (map file_stored fs)) /\
  pkg_installed_size p = zlen (concat (map file_stored fs)) /\
  pkg_size p = 4096 + zlen (concat (map f_data fs)).
Proof. exact size_spec. Qed.
Print Assumptions C29_sizes_partial.
(* false of the code: one 1-byte file *)
Theorem C29_sizes_refuted : exists p, snd (pkg_add_file toy_sha (run_fresh []) [1] fs_name 0) = Ok tt /\
  p = fst (pkg_add_file toy_sha (run_fresh []) [1] fs_name 0) /\
  zlen (pk_file p) = 4608 /\ pkg_size p = 4097 /\ pkg_installed_size p = 512.
Proof. eexists. split; [vm_compute; reflexivity|]. split; [reflexivity|]. split; [|split]; vm_compute; reflexivity. Qed.
Print Assumptions C29_sizes_refuted.

(* ---- C30 ---- *)
Theorem C30_open_existing : forall sha w (f : bytes), 4096 <= zlen f ->
  fst (pkg_open sha w f) = f /\
  (forall p, snd (pkg_open sha w f) = Ok p <->
     valid_header (dec_header (ztake 4096 f)) = Ok tt /\ p = mkPkg (dec_header (ztake 4096 f)) f) /\
  (forall e, snd (pkg_open sha w f) = Err e <-> valid_header (dec_header (ztake 4096 f)) = Err e).
Proof. exact open_existing. Qed.
Print Assumptions C30_open_existing.
(* a file shorter than a header: refused for reading; for writing the header
   of an empty package is written after what is there *)
Theorem C30_open_short : forall sha (f : bytes), good_hash sha -> zlen f < 4096 ->
  pkg_open sha false f = (f, Err E_WRITE_ERROR) /\
  exists h, pkg_open sha true f = (f ++ enc_header h, Ok (mkPkg h (f ++ enc_header h))) /\ valid_header h = Ok tt /\
    wf_header h /\ h_parts h = repeat zero_part 32.
Proof.
  intros sha f G L. destruct (open_short sha f G L) as [A B]. split; [exact A|]. exists (fresh_header sha).
  split; [exact B|]. split; [reflexivity|]. split; [now apply fresh_wf|reflexivity].
Qed.
Print Assumptions C30_open_short.
(* so, false of the code: unless the file was empty the result is no package *)
Theorem C30_reopen_refuted : forall sha (f : bytes), good_hash sha -> 4 <= zlen f < 4096 ->
  unle (ztake 4 f) <> h_magic init_header ->
  let f' := fst (pkg_open sha true f) in
  (exists p, snd (pkg_open sha true f) = Ok p) /\ snd (pkg_open sha true f') = Err E_BAD_MAGIC.
Proof. exact open_short_not_reopenable. Qed.
Print Assumptions C30_reopen_refuted.
(* missing: update of files of 1..4095 bytes *)
Theorem C30_reopen_partial : forall sha w p fs, pkg_inv sha p fs -> pkg_open sha w (pk_file p) = (pk_file p, Ok p).
Proof. intros sha w p fs [(es & H & _) _ V _ _ _]. eapply reopen; eauto. Qed.
Print Assumptions C30_reopen_partial.
Example C30_instance : 4 <= zlen (repeat 1 8) < 4096 /\ unle (ztake 4 (repeat 1 8)) <> h_magic init_header /\
  exists p, snd (pkg_open toy_sha true []) = Ok p /\ pkg_inv toy_sha p [].
Proof.
  split; [vm_compute; split; [discriminate|reflexivity]|]. split; [vm_compute; discriminate|]. eexists.
  split; [|apply (fresh_inv toy_sha toy_sha_good)]. destruct (open_short toy_sha [] toy_sha_good) as [_ E]; [cbn; lia|]. rewrite E. reflexivity.
Qed.

(* ---- C45 ---- *)
(* false of the code: reads past a one-byte variable whenever two or more
   padding bytes are needed *)
Theorem C45_add_key_refuted : forall sha p es key name flags, holds p es -> bpak_id name <> 0 ->
  ~ In (bpak_id name) (map (fun e : parth * bytes => p_id (fst e)) es) -> (length es < 32)%nat ->
  plain es -> 1 < padding (zlen key) -> snd (pkg_add_key sha p key name flags) = UB.
Proof. exact add_key_ub. Qed.
Print Assumptions C45_add_key_refuted.
(* missing: keys whose length is not 0 or 511 modulo 512 *)
Theorem C45_add_key_partial : forall sha p es key name flags, good_hash sha -> holds p es -> plain es ->
  hash_supported (h_hash_kind (pk_header p)) = true ->
  bytes_ok name -> bpak_id name <> 0 -> ~ In (bpak_id name) (map (fun e : parth * bytes => p_id (fst e)) es) ->
  (length es < 32)%nat -> 0 <= flags < 256 -> Z.testbit flags 1 = false -> zlen (pk_file p) + zlen key + 512 <= 2^63 ->
  padding (zlen key) <= 1 ->
  let e := (new_part p (bpak_id name) key flags, key ++ zeros (padding (zlen key))) in
  exists p', pkg_add_key sha p key name flags = (p', Ok tt) /\
    holds p' (es ++ [e]) /\ same_besides_parts (pk_header p) (pk_header p') /\ hash_current sha p' (es ++ [e]) /\
    pkg_extract_file p' (bpak_id name) = (Some key, Ok tt).
Proof. exact add_key_ok. Qed.
Print Assumptions C45_add_key_partial.
(* a DER-encoded EC P-256 public key has 91 bytes *)
Example C45_instance : holds fm_pkg [(mkPart 10 512 4096 0 0 0 0, repeat 1 (Z.to_nat 512))] /\
  1 < padding (zlen (repeat 48 91)) /\ padding (zlen (repeat 48 (Z.to_nat 1023))) <= 1 /\ bpak_id fs_name <> 0.
Proof.
  split; [exact fm_holds|]. split; [vm_compute; reflexivity|]. split; [vm_compute; discriminate|vm_compute; discriminate].
Qed.

(* ---- C46 ---- *)
(* any list of files, each with or without a tree, added to a new package *)
Theorem C46_packages_with_trees_verify_partial : forall sha its p0, good_hash sha ->
  snd (pkg_open sha true []) = Ok p0 -> Forall item_ok its ->
  NoDup (concat (map item_ids its)) -> (length (concat (map item_ids its)) <= 32)%nat ->
  4096 + items_cost its <= 2^63 ->
  exists p, run_adds sha p0 its = (p, map (fun _ => Ok tt) its) /\
    verify_payload sha (pk_header p) (file_rd (pk_file p)) 4096 = Ok tt /\
    (forall it, In it its -> pkg_extract_file p (bpak_id (ti_name it)) = (Some (ti_data it), Ok tt)).
Proof. exact fresh_adds_verify. Qed.
Print Assumptions C46_packages_with_trees_verify_partial.
(* one add to any package whose trees verify: what is stored is the specified
   tree and root hash (MerkleSpec.v) *)
Theorem C46_add_tree_partial : forall sha p es live data name salt flags, good_hash sha -> tree_inv sha p es live ->
  bytes_ok name -> bpak_id name <> 0 -> part_name_to_hash_tree_id name <> 0 ->
  ~ In (bpak_id name) (map (fun e : parth * bytes => p_id (fst e)) es) ->
  ~ In (part_name_to_hash_tree_id name) (map (fun e : parth * bytes => p_id (fst e)) es) ->
  part_name_to_hash_tree_id name <> bpak_id name ->
  (length es <= 30)%nat -> (length live <= 30)%nat -> meta_end live + 64 <= 1920 ->
  0 <= flags < 256 -> Z.testbit flags 1 = false ->
  0 < zlen data <= 2^33 -> zlen data mod 4096 = 0 -> zlen salt = 32 -> bytes_ok salt ->
  zlen (pk_file p) + zlen data + 2^40 <= 2^63 ->
  exists p' ls, hash_levels sha salt data ls /\
    pkg_add_file_with_merkle_tree sha p data name salt flags = (p', Ok tt) /\
    tree_inv sha p' (es ++ [(new_part p (bpak_id name) data flags, data);
                            (tree_part p name data (hash_tree ls) flags, hash_tree ls)])
      (live ++ [mkEntry ID_MERKLE_SALT (bpak_id name) salt;
                mkEntry ID_MERKLE_ROOT_HASH (bpak_id name) (root_hash sha salt data ls)]) /\
    same_besides_parts_meta (pk_header p) (pk_header p') /\
    pkg_extract_file p' (bpak_id name) = (Some data, Ok tt) /\
    pkg_extract_file p' (part_name_to_hash_tree_id name) = (Some (hash_tree ls), Ok tt).
Proof. exact add_merkle_tree_inv. Qed.
Print Assumptions C46_add_tree_partial.
Theorem C46_tree_inv_verifies : forall sha p es live, good_hash sha -> tree_inv sha p es live ->
  verify_payload sha (pk_header p) (file_rd (pk_file p)) 4096 = Ok tt.
Proof. exact tree_inv_verifies. Qed.
Print Assumptions C46_tree_inv_verifies.
(* false of the code: a file that is not a whole number of 4096-byte blocks is
   refused, but the part stays in the package *)
Theorem C46_add_tree_atomic_refuted : forall sha p es data name salt flags, good_hash sha -> holds p es -> plain es ->
  hash_supported (h_hash_kind (pk_header p)) = true ->
  bytes_ok name -> bpak_id name <> 0 -> ~ In (bpak_id name) (map (fun e : parth * bytes => p_id (fst e)) es) ->
  (length es < 32)%nat -> 0 <= flags < 256 -> Z.testbit flags 1 = false -> zlen (pk_file p) + zlen data + 512 <= 2^63 ->
  zlen data mod 4096 <> 0 ->
  exists p', pkg_add_file_with_merkle_tree sha p data name salt flags = (p', Err E_BAD_ALIGNMENT) /\
    holds p' (es ++ [(new_part p (bpak_id name) data flags, data ++ zeros (padding (zlen data)))]).
Proof. exact add_merkle_bad_size. Qed.
Print Assumptions C46_add_tree_atomic_refuted.
Example C46_instance : Forall item_ok pw_items /\ NoDup (concat (map item_ids pw_items)) /\
  (length (concat (map item_ids pw_items)) <= 32)%nat /\ 4096 + items_cost pw_items <= 2^63.
Proof. exact pw_items_ok. Qed.
