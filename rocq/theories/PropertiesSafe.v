(* PropertiesSafe.v -- C78 (verifying and reading untrusted packages), C79
   (extracting transport-encoded parts), and what C28 leaves out.
   Specification: SafeSpec.v; holds: PkgSpec.v. *)
From Verif Require Import BaseLemmas HeaderModel HeaderSpec HeaderWitness CodecProofs MetaProofs CrcModel HashModel MerkleApi VerifyModel VerifySpec VerifyWitness
  SafeSpec SafeProofs SafeExtract PkgModel PkgSpec PkgProofs PkgWitness.

(* ---- C78 ---- *)
(* no header and no file content makes the verification run for ever *)
Theorem C78_verify_comes_back : forall K sha (sg : sigscheme K) junk p key, answering_scheme sg -> wf_header (pk_header p) ->
  comes_back (pkg_verify sha sg junk p key).
Proof. intros K sha sg junk p key A W. now apply verify_back. Qed.
Print Assumptions C78_verify_comes_back.
(* bpak_verify_payload with the caller's own reader *)
Theorem C78_verify_payload_comes_back : forall sha h rd off, answering_reader rd -> wf_header h -> comes_back (verify_payload sha h rd off).
Proof. intros sha h rd off R W. apply payload_back; [exact R|now apply wf_part_sizes]. Qed.
Print Assumptions C78_verify_payload_comes_back.
(* missing: signature sizes above 512, roots and salts that start within 32
   bytes of the end of the metadata block; refuted below *)
Theorem C78_verify_answers_partial : forall K sha (sg : sigscheme K) junk p key, answering_scheme sg -> wf_header (pk_header p) ->
  signature_inside (pk_header p) -> tree_values_inside (pk_header p) -> answers (pkg_verify sha sg junk p key).
Proof. intros K sha sg junk p key A W S T. now apply verify_answers. Qed.
Print Assumptions C78_verify_answers_partial.
Theorem C78_verify_payload_answers_partial : forall sha h rd off, answering_reader rd -> wf_header h -> tree_values_inside h ->
  answers (verify_payload sha h rd off).
Proof. intros sha h rd off R W T. apply payload_answers; [exact R|now apply wf_part_sizes|exact T]. Qed.
Print Assumptions C78_verify_payload_answers_partial.
(* a package that was not signed with the key is refused whatever it contains,
   and its parts are not looked at *)
Theorem C78_unsigned_refused_partial : forall K sha (sg : sigscheme K) junk p key, answering_scheme sg ->
  signature_inside (pk_header p) ->
  (forall hash, sg_verify sg (slice 0 (h_signature_sz (pk_header p)) (h_signature (pk_header p))) hash (h_hash_kind (pk_header p)) key <> Ok true) ->
  exists e, forall f, pkg_verify sha sg junk (mkPkg (pk_header p) f) key = Err e.
Proof.
  intros K sha sg junk p key A S N. unfold pkg_verify. cbn [pk_header pk_file].
  destruct (header_hash_answers sha (pk_header p) 64) as [[x ->]|[e ->]]; cbn [bind]; [|exists e; reflexivity].
  unfold signature_inside in S. destruct (Z.gtb_spec (h_signature_sz (pk_header p)) 512); [lia|].
  match goal with |- context [sg_verify sg ?a ?b ?c ?d] => specialize (N b); destruct (A a b c d) as [[v E]|[e E]]; rewrite E in * end; cbn [bind].
  - destruct v; [congruence|]. exists E_VERIFY_FAIL. reflexivity.
  - exists e. reflexivity.
Qed.
Print Assumptions C78_unsigned_refused_partial.
(* the size of the signature is believed before anything is authenticated: any
   package that claims more than 512 bytes is read past the header *)
Theorem C78_signature_size_refuted : forall K sha (sg : sigscheme K) junk p key,
  hash_supported (h_hash_kind (pk_header p)) = true -> 512 < h_signature_sz (pk_header p) ->
  pkg_verify sha sg junk p key = UB.
Proof.
  intros K sha sg junk p key Hs H. unfold pkg_verify, compute_header_hash, hash_init. rewrite Hs. cbn [bind].
  match goal with |- context [hash_final ?a ?b ?c] => destruct (hash_final a b c) end; cbn [bind];
  (destruct (Z.gtb_spec (h_signature_sz (pk_header p)) 512); [reflexivity|lia]).
Qed.
Print Assumptions C78_signature_size_refuted.
(* a root hash entry is taken to have 32 bytes whatever size it records: the
   header is accepted by bpak_valid_header, the signature and the payload hash
   are right, and the memory after the metadata block is read *)
Definition root_short (off : Z) (kind : Z) : metah := mkMeta kind 8 off 10 [0;0;0;0].
Definition rs_header0 (off : Z) : header :=
  with_meta (with_parts init_header (mkPart 10 4096 4096 0 0 0 0 :: repeat zero_part 31))
    (root_short off ID_MERKLE_ROOT_HASH :: repeat zero_meta 31).
Definition rs_file (off : Z) : bytes := enc_header (rs_header0 off) ++ repeat 1 (Z.to_nat 4096).
Definition rs_pkg (off : Z) : pkg := fst (pkg_sign toy_sha toy_sig [] (mkPkg (rs_header0 off) (rs_file off)) 42).
Theorem C78_root_entry_refuted : exists p, valid_header (pk_header p) = Ok tt /\
  (exists p0, pkg_sign toy_sha toy_sig [] p0 42 = (p, Ok tt)) /\
  signature_inside (pk_header p) /\ pkg_verify toy_sha toy_sig [] p 42 = UB.
Proof.
  exists (rs_pkg 1912). split; [vm_compute; reflexivity|]. split; [|split].
  - exists (mkPkg (rs_header0 1912) (rs_file 1912)). unfold rs_pkg.
    assert (E : snd (pkg_sign toy_sha toy_sig [] (mkPkg (rs_header0 1912) (rs_file 1912)) 42) = Ok tt) by (vm_compute; reflexivity).
    destruct (pkg_sign toy_sha toy_sig [] (mkPkg (rs_header0 1912) (rs_file 1912)) 42) as [x y]. cbn [snd fst] in *. now subst.
  - vm_compute. discriminate.
  - vm_compute. reflexivity.
Qed.
Print Assumptions C78_root_entry_refuted.
(* the digest of a part and its extraction, for any header at all *)
Theorem C78_part_digest_answers : forall sha p id room, wf_header (pk_header p) -> answers (pkg_part_sha256 sha p id room).
Proof. intros. now apply part_sha256_answers. Qed.
Print Assumptions C78_part_digest_answers.
Theorem C78_extract_answers : forall p id, answers (snd (pkg_extract_file p id)).
Proof. exact extract_answers. Qed.
Print Assumptions C78_extract_answers.
(* hostile packages: sizes of nearly 2^64, a hash tree recorded for an empty
   part, a signature that is not one *)
Definition hs_header : header :=
  with_signature (with_meta (with_parts init_header
    ([mkPart 10 (2^64 - 512) 0 0 512 1 0; mkPart 11 (2^63) (2^64 - 1) (2^64 - 1) 65535 255 7] ++ repeat zero_part 30))
    ([mkMeta ID_MERKLE_ROOT_HASH 65535 1888 10 [0;0;0;0]; mkMeta ID_MERKLE_SALT 0 0 10 [0;0;0;0]] ++ repeat zero_meta 30)) (zeros 512) 34.
Lemma toy_answering : answering_scheme toy_sig.
Proof. intros s d k key. left. eexists. reflexivity. Qed.
Lemma hs_wf : wf_header hs_header.
Proof.
  apply wf_headerb_ok. vm_compute. reflexivity.
Qed.
Example C78_instance :
  answering_scheme toy_sig /\ answering_reader (file_rd [1;2;3]) /\ wf_header hs_header /\
  signature_inside hs_header /\ tree_values_inside hs_header /\
  (forall hash, sg_verify toy_sig (slice 0 (h_signature_sz hs_header) (h_signature hs_header)) hash (h_hash_kind hs_header) 42 <> Ok true) /\
  pkg_verify toy_sha toy_sig [] (mkPkg hs_header [1;2;3]) 42 = Err E_VERIFY_FAIL /\
  verify_payload toy_sha hs_header (file_rd [1;2;3]) 4096 = Err E_BAD_PAYLOAD_HASH /\
  hash_supported (h_hash_kind (with_signature hs_header (zeros 512) 513)) = true /\
  512 < h_signature_sz (with_signature hs_header (zeros 512) 513).
Proof.
  split; [exact toy_answering|]. split; [apply file_rd_answers|]. split; [exact hs_wf|]. split; [vm_compute; discriminate|].
  split. { unfold tree_values_inside. cbn [hs_header with_signature with_meta with_parts h_meta]. apply Forall_app. split.
    - repeat constructor; cbn; lia.
    - apply Forall_forall. intros x Hx. apply repeat_spec in Hx. subst. cbn. lia. }
  split. { intros hash E. cbn [toy_sig sg_verify] in E. injection E as E. discriminate E. }
  split; [vm_compute; reflexivity|]. split; [vm_compute; reflexivity|].
  split; vm_compute; reflexivity.
Qed.

(* ---- C79 ---- *)
(* missing: parts that had padding before they were encoded, below *)
Theorem C79_extract_encoded_partial : forall p (a : list (parth * bytes)) q (c : bytes) b, holds p (a ++ (q, c) :: b) ->
  p_pad_bytes q = 0 -> pkg_extract_file p (p_id q) = (Some c, Ok tt).
Proof.
  intros p a q c b H P. rewrite (extract_stored _ _ _ _ _ H) by (pose proof (zlen_nonneg c); lia).
  rewrite P, Z.sub_0_r. rewrite ztake_all by lia. reflexivity.
Qed.
Print Assumptions C79_extract_encoded_partial.
(* the padding of the unencoded part is taken off the encoded bytes, and the
   call succeeds *)
Theorem C79_encoded_cut_refuted : forall p (a : list (parth * bytes)) q (c : bytes) b, holds p (a ++ (q, c) :: b) ->
  Z.testbit (p_flags q) 1 = true -> 0 < p_pad_bytes q <= zlen c ->
  pkg_extract_file p (p_id q) = (Some (ztake (zlen c - p_pad_bytes q) c), Ok tt) /\
  ztake (zlen c - p_pad_bytes q) c <> c.
Proof.
  intros p a q c b H _ P. split; [apply (extract_stored _ _ _ _ _ H); lia|].
  intros E. apply (f_equal zlen) in E. rewrite zlen_ztake in E. pose proof (zlen_nonneg c). lia.
Qed.
Print Assumptions C79_encoded_cut_refuted.
(* an encoded part smaller than that padding cannot be extracted *)
Theorem C79_encoded_lost_refuted : forall p (a : list (parth * bytes)) q (c : bytes) b, holds p (a ++ (q, c) :: b) ->
  zlen c < p_pad_bytes q -> exists out, pkg_extract_file p (p_id q) = (Some out, Err E_READ_ERROR).
Proof. exact extract_wraps. Qed.
Print Assumptions C79_encoded_lost_refuted.
Lemma tx_holds pad : 0 <= pad < 2^16 -> holds (tx_pkg pad) ([] ++ (mkPart 10 1000 4096 8 pad 2 0, [1;2;3;4;5;6;7;8]) :: []).
Proof.
  intros P. assert (W : wf_header (tx_header pad)).
  { apply wf_with_parts; [apply wf_init_header|reflexivity|]. constructor; [repeat split; cbn; lia|].
    apply Forall_forall. intros x Hx. apply repeat_spec in Hx. subst. exact wf_zero_part. }
  constructor.
  - exact W.
  - cbn [length app]. lia.
  - reflexivity.
  - constructor; [cbn; discriminate|constructor].
  - cbn. constructor; [intros []|constructor].
  - constructor; [reflexivity|constructor].
  - reflexivity.
  - cbn [tx_pkg pk_file]. rewrite zlen_app, zlen_enc_header by exact W. change (zlen [1;2;3;4;5;6;7;8]) with 8. lia.
Qed.
Example C79_instance :
  holds (tx_pkg 0) ([] ++ (mkPart 10 1000 4096 8 0 2 0, [1;2;3;4;5;6;7;8]) :: []) /\
  holds (tx_pkg 3) ([] ++ (mkPart 10 1000 4096 8 3 2 0, [1;2;3;4;5;6;7;8]) :: []) /\
  pkg_extract_file (tx_pkg 3) 10 = (Some [1;2;3;4;5], Ok tt) /\
  holds (tx_pkg 24) ([] ++ (mkPart 10 1000 4096 8 24 2 0, [1;2;3;4;5;6;7;8]) :: []) /\
  zlen [1;2;3;4;5;6;7;8] < p_pad_bytes (mkPart 10 1000 4096 8 24 2 0).
Proof.
  split; [apply tx_holds; lia|]. split; [apply tx_holds; lia|]. split; [apply extract_transport_wrong|]. split; [apply tx_holds; lia|].
  vm_compute. reflexivity.
Qed.

(* ---- C28 ---- *)
(* with all 32 metadata slots in use and one of them bound to a part, deleting
   all parts with their metadata runs past the table *)
Theorem C28_full_metadata_refuted : forall sha p j m, wf_header (pk_header p) ->
  Forall (fun m => m_id m <> 0) (h_meta (pk_header p)) -> nth_error (h_meta (pk_header p)) j = Some m -> m_ref m <> 0 ->
  snd (pkg_delete_all_parts sha p true) = UB.
Proof.
  intros sha p j m W F Hj Hr. unfold pkg_delete_all_parts.
  assert (Lt : (j < 32)%nat) by (rewrite <- (proj1 (wf_metas _ W)); apply nth_error_Some; congruence).
  match goal with |- context [remove_meta_loop ?s 100 0 ?h] =>
    rewrite (remove_meta_full_ub s h (proj1 (wf_metas _ W)) F j 100 0 j m) by (try lia; try exact Hj; apply negb_true_iff; now apply Z.eqb_neq)
  end.
  reflexivity.
Qed.
Print Assumptions C28_full_metadata_refuted.
Example C28_full_instance : wf_header (pk_header fm_pkg) /\ Forall (fun m => m_id m <> 0) (h_meta (pk_header fm_pkg)) /\
  exists m, nth_error (h_meta (pk_header fm_pkg)) 0 = Some m /\ m_ref m <> 0.
Proof.
  split; [apply (ho_wf _ _ fm_holds)|]. split; [vm_compute; repeat constructor; discriminate|].
  eexists. split; [reflexivity|discriminate].
Qed.
