(* PkgWitness.v -- counterexamples and concrete packages for PropertiesPkg.v *)
From Verif Require Import BaseLemmas HeaderModel HeaderSpec HeaderHistory CodecProofs PartProofs MetaProofs CrcModel CrcProofs HashModel
  MerkleModel MerkleSizes MerkleApi VerifyModel VerifySpec VerifyProofs VerifySign VerifyWitness PkgModel PkgSpec PkgProofs PkgAdd
  PkgDelete PkgHistory PkgApi PkgTrees PkgMerkle.

Lemma In_skipn {A} n : forall (l : list A) x, In x (skipn n l) -> In x l.
Proof. induction n as [|n IH]; intros l x H; [exact H|]. destruct l as [|y l]; [exact H|]. right. now apply IH. Qed.
Definition fs_name : bytes := [102; 115].  (* "fs" *)
Definition run_fresh (its : list titem) : pkg :=
  match snd (pkg_open toy_sha true []) with Ok p => fst (run_adds toy_sha p its) | _ => mkPkg init_header [] end.

(* ---- a package with a transport-encoded part ---- *)
Definition tr_parts : list parth := [mkPart 10 1024 4096 512 0 2 0].
Definition tr_header : header := with_parts init_header (tr_parts ++ repeat zero_part 31).
Definition tr_pkg : pkg := mkPkg tr_header (enc_header tr_header ++ repeat 7 (Z.to_nat 512)).
Lemma tr_header_wf : wf_header tr_header.
Proof.
  apply wf_with_parts; [apply wf_init_header|reflexivity|]. apply Forall_app. split.
  - repeat constructor; cbn; lia.
  - apply Forall_forall. intros x Hx. apply repeat_spec in Hx. subst. exact wf_zero_part.
Qed.
Lemma tr_holds : holds tr_pkg [(mkPart 10 1024 4096 512 0 2 0, repeat 7 (Z.to_nat 512))].
Proof.
  constructor.
  - exact tr_header_wf.
  - cbn [length]. lia.
  - reflexivity.
  - constructor; [cbn; discriminate|constructor].
  - cbn. constructor; [intros []|constructor].
  - constructor; [reflexivity|constructor].
  - reflexivity.
  - vm_compute. reflexivity.
Qed.
Lemma add_to_transport_wrong :
  valid_header (pk_header tr_pkg) = Ok tt /\
  snd (pkg_add_file toy_sha tr_pkg [1; 2; 3] fs_name 0) = Ok tt /\
  pkg_extract_file (fst (pkg_add_file toy_sha tr_pkg [1; 2; 3] fs_name 0)) (bpak_id fs_name) = (Some [0; 0; 0], Ok tt).
Proof. split; [vm_compute; reflexivity|]. split; vm_compute; reflexivity. Qed.
(* extracting a transport-encoded part: the size with the padding of the
   unencoded part taken off, which wraps around when it is smaller *)
Definition tx_header (pad : Z) : header := with_parts init_header (mkPart 10 1000 4096 8 pad 2 0 :: repeat zero_part 31).
Definition tx_pkg (pad : Z) : pkg := mkPkg (tx_header pad) (enc_header (tx_header pad) ++ [1;2;3;4;5;6;7;8]).
Lemma extract_transport_wrong :
  pkg_extract_file (tx_pkg 0) 10 = (Some [1;2;3;4;5;6;7;8], Ok tt) /\
  pkg_extract_file (tx_pkg 3) 10 = (Some [1;2;3;4;5], Ok tt).
Proof. split; vm_compute; reflexivity. Qed.

(* ---- deleting with a full metadata table ---- *)
Lemma remove_meta_full_ub sel h : length (h_meta h) = 32%nat -> Forall (fun m => m_id m <> 0) (h_meta h) ->
  forall d fuel i j m, (d = j - i)%nat -> (i <= j)%nat -> nth_error (h_meta h) j = Some m -> sel m = true ->
  (d < fuel)%nat -> remove_meta_loop sel fuel i h = UB.
Proof.
  intros L F. induction d as [|d IH]; intros fuel i j m Hd Hij Hj Hs Hf; (destruct fuel as [|k]; [lia|]);
    assert (Hlt : (j < 32)%nat) by (rewrite <- L; apply nth_error_Some; congruence); cbn [remove_meta_loop];
    (destruct (Nat.eqb_spec i MAX_META) as [X|X]; [unfold MAX_META in X; lia|]).
  - assert (j = i) as -> by lia. rewrite Hj, Hs. rewrite del_meta_full_ub; [reflexivity|].
    apply Forall_forall. intros x Hx. rewrite Forall_forall in F. apply F. eapply In_skipn; eauto.
  - destruct (nth_error (h_meta h) i) as [mi|] eqn:Ei.
    + destruct (sel mi).
      * rewrite del_meta_full_ub; [reflexivity|]. apply Forall_forall. intros x Hx. rewrite Forall_forall in F. apply F. eapply In_skipn; eauto.
      * eapply (IH k (S i) j m); auto; lia.
    + reflexivity.
Qed.
(* deleting a part together with its metadata: undefined when all 32 metadata
   slots are used and one of them belongs to the part *)
Lemma delete_part_full_meta sha p (a : list (parth * bytes)) q c b j m : holds p (a ++ (q, c) :: b) ->
  Forall (fun m => m_id m <> 0) (h_meta (pk_header p)) -> nth_error (h_meta (pk_header p)) j = Some m -> m_ref m = p_id q ->
  snd (pkg_delete_part sha p (p_id q) true) = UB.
Proof.
  intros H F Hj Hr. destruct (get_part_at _ _ _ _ _ H) as [Gp Np]. unfold pkg_delete_part. rewrite Gp, Np.
  rewrite (del_part_holds _ _ _ _ _ H).
  match goal with |- context [shift_offsets ?x ?y ?z] => destruct (shift_offsets x y z) as [tail todo] end.
  assert (Lt : (j < 32)%nat).
  { rewrite <- (proj1 (wf_metas _ (ho_wf _ _ H))). apply nth_error_Some. congruence. }
  match goal with |- context [remove_meta_loop ?s 100 0 ?h] =>
    rewrite (remove_meta_full_ub s h (proj1 (wf_metas _ (ho_wf _ _ H))) F j 100 0 j m) by (try lia; try exact Hj; apply Z.eqb_eq; exact Hr)
  end.
  reflexivity.
Qed.
Definition fm_metas : list metah :=
  mkMeta 1 8 0 10 [0;0;0;0] :: map (fun i => mkMeta (Z.of_nat i + 2) 8 (8 * (Z.of_nat i + 1)) 0 [0;0;0;0]) (seq 0 31).
Definition fm_header : header := with_meta (with_parts init_header (mkPart 10 512 4096 0 0 0 0 :: repeat zero_part 31)) fm_metas.
Definition fm_pkg : pkg := mkPkg fm_header (enc_header fm_header ++ repeat 1 (Z.to_nat 512)).
Lemma fm_holds : holds fm_pkg [(mkPart 10 512 4096 0 0 0 0, repeat 1 (Z.to_nat 512))].
Proof.
  assert (W : wf_header fm_header).
  { unfold fm_header. change (with_meta ?h ?m) with (with_metadata (with_meta h m) (h_metadata h)).
    assert (W0 : wf_header (with_parts init_header (mkPart 10 512 4096 0 0 0 0 :: repeat zero_part 31))).
    { apply wf_with_parts; [apply wf_init_header|reflexivity|]. constructor; [repeat split; cbn; lia|].
      apply Forall_forall. intros x Hx. apply repeat_spec in Hx. subst. exact wf_zero_part. }
    apply wf_with_metas; [exact W0|reflexivity| |apply (wf_metadata _ W0)|apply (wf_metadata _ W0)].
    unfold fm_metas. constructor; [unfold wf_meta; cbn; repeat split; try lia; try reflexivity; repeat constructor; lia|].
    apply Forall_map. apply Forall_forall. intros i Hi. apply in_seq in Hi. unfold wf_meta. cbn [m_id m_size m_offset m_ref m_pad].
    repeat split; try lia; try reflexivity; repeat constructor; lia. }
  constructor; auto.
  - cbn [length]. lia.
  - constructor; [cbn; discriminate|constructor].
  - cbn. constructor; [intros []|constructor].
  - vm_compute. reflexivity.
Qed.

(* ---- the copy loop of bpak_pkg_delete_part ---- *)
(* at the end of the file with something left to move nothing changes any more *)
Lemma move_down_at_end fuel : forall f rd wr left, zlen f <= rd -> left <> 0 -> 0 <= left < 2^64 ->
  move_down_loop fuel f rd wr left = Stuck.
Proof.
  induction fuel as [|k IH]; intros f rd wr left Hr Hl Hb; cbn [move_down_loop].
  - destruct (Z.eqb_spec left 0); [contradiction|reflexivity].
  - destruct (Z.eqb_spec left 0); [contradiction|].
    assert (E : fread_at f rd CHUNK = []).
    { apply zlen_0_nil. unfold fread_at. rewrite zlen_slice. pose proof (zlen_nonneg f). unfold CHUNK. lia. }
    rewrite E. change (zlen (@nil Z)) with 0. unfold fwrite_at. change (zlen (@nil Z)) with 0. cbn [Z.eqb].
    rewrite !Z.add_0_r, Z.sub_0_r. unfold u64. rewrite Z.mod_small by lia. now apply IH.
Qed.
Definition dl_parts : list parth := [mkPart 10 512 4096 0 0 0 0; mkPart 11 512 4608 0 0 0 0].
Definition dl_header : header := with_parts init_header (dl_parts ++ repeat zero_part 30).
(* one byte more than the parts *)
Definition dl_long : pkg := mkPkg dl_header (enc_header dl_header ++ repeat 1 (Z.to_nat 1024) ++ [9]).
(* the last part's data missing *)
Definition dl_short : pkg := mkPkg dl_header (enc_header dl_header ++ repeat 1 (Z.to_nat 512)).
Lemma delete_long_hangs : valid_header dl_header = Ok tt /\
  snd (pkg_delete_part toy_sha dl_long 10 false) = Stuck /\
  (forall fuel, move_down_loop fuel (pk_file dl_long) 4608 4096 512 = Stuck) /\
  snd (pkg_delete_part toy_sha dl_short 10 false) = Stuck /\
  (forall fuel, move_down_loop fuel (pk_file dl_short) 4608 4096 512 = Stuck).
Proof.
  split; [vm_compute; reflexivity|]. split; [vm_compute; reflexivity|]. split.
  - intros [|fuel]; [reflexivity|]. cbn [move_down_loop]. change (512 =? 0) with false. cbv iota.
    assert (E : fread_at (pk_file dl_long) 4608 CHUNK = repeat 1 (Z.to_nat 512) ++ [9]) by (vm_compute; reflexivity).
    assert (Lf : zlen (fwrite_at (pk_file dl_long) 4096 (repeat 1 (Z.to_nat 512) ++ [9])) = 5121) by (vm_compute; reflexivity).
    rewrite E. change (zlen (repeat 1 (Z.to_nat 512) ++ [9])) with 513.
    apply move_down_at_end; [|vm_compute; discriminate|split; [vm_compute; discriminate|vm_compute; reflexivity]].
    rewrite Lf. lia.
  - split; [vm_compute; reflexivity|]. intros fuel. apply move_down_at_end; [vm_compute; discriminate|lia|lia].
Qed.

(* ---- adding with a hash tree is not atomic ---- *)
Lemma add_merkle_bad_size sha p es data name salt flags : good_hash sha -> holds p es -> plain es ->
  hash_supported (h_hash_kind (pk_header p)) = true ->
  bytes_ok name -> bpak_id name <> 0 -> ~ In (bpak_id name) (map (fun e : parth * bytes => p_id (fst e)) es) -> (length es < 32)%nat ->
  0 <= flags < 256 -> Z.testbit flags 1 = false -> zlen (pk_file p) + zlen data + 512 <= 2^63 ->
  zlen data mod 4096 <> 0 ->
  exists p', pkg_add_file_with_merkle_tree sha p data name salt flags = (p', Err E_BAD_ALIGNMENT) /\
    holds p' (es ++ [(new_part p (bpak_id name) data flags, data ++ zeros (padding (zlen data)))]).
Proof.
  intros G H P Hs Hnm Hid Hnin Hl Hfl Hft Hb Ha.
  destruct (add_file_ok sha p es data name flags) as (p' & E & H' & _); auto. exists p'. split; [|exact H'].
  unfold pkg_add_file_with_merkle_tree. rewrite E. unfold build_tree.
  pose proof (zlen_nonneg data). pose proof (zlen_nonneg (pk_file p)).
  destruct (compute_size_spec (zlen data) ltac:(lia)) as [C _]. rewrite (C Ha). reflexivity.
Qed.

(* ---- concrete packages ---- *)
Definition pw_ops : list pkg_op :=
  [OAdd [97] (repeat 5 (Z.to_nat 5000)) 0; OAdd [98] [] 1; OAdd [97] [1] 0; OAdd [99] (repeat 6 (Z.to_nat 512)) 0;
   ODel (bpak_id [97]) true; OExtract (bpak_id [99]); OExtract (bpak_id [97])].
Lemma pw_ops_ok : Forall pkg_op_ok pw_ops /\ 4096 + pkg_ops_cost pw_ops <= 2^63.
Proof.
  split.
  - unfold pw_ops. repeat constructor; cbn [pkg_op_ok]; try lia; try (vm_compute; discriminate).
  - vm_compute. discriminate.
Qed.
Definition pw_items : list titem :=
  [mkItem [97] (repeat 5 (Z.to_nat 1000)) 0 None; mkItem [98] (repeat 6 (Z.to_nat 8192)) 0 (Some (zeros 32)); mkItem [99] [] 1 None].
Lemma pw_items_ok : Forall item_ok pw_items /\ NoDup (concat (map item_ids pw_items)) /\
  (length (concat (map item_ids pw_items)) <= 32)%nat /\ 4096 + items_cost pw_items <= 2^63.
Proof.
  split; [|split; [|split]].
  - unfold pw_items. constructor; [|constructor; [|constructor; [|constructor]]]; unfold item_ok; cbn [ti_name ti_salt ti_flags ti_data].
    + split; [repeat constructor; lia|]. split; [repeat constructor; vm_compute; discriminate|]. split; [lia|]. split; [reflexivity|exact I].
    + split; [repeat constructor; lia|]. split; [repeat constructor; vm_compute; discriminate|]. split; [lia|]. split; [reflexivity|].
      split; [vm_compute; split; [reflexivity|discriminate]|]. split; [reflexivity|]. split; [reflexivity|]. apply bytes_ok_zeros.
    + split; [repeat constructor; lia|]. split; [repeat constructor; vm_compute; discriminate|]. split; [lia|]. split; [reflexivity|exact I].
  - vm_compute. repeat constructor; cbn [In]; intuition discriminate.
  - vm_compute. repeat constructor.
  - vm_compute. discriminate.
Qed.
