(* PropertiesVerify.v -- C19..C24.  Specification: VerifySpec.v. *)
From Verif Require Import BaseLemmas HeaderModel HeaderSpec CrcModel HashModel MerkleModel VerifyModel VerifySpec
  VerifyProofs VerifySign VerifyAgree VerifyWitness MerkleApi.

(* ---- C19 ---- *)
(* [sizes_ok]: every slot is a C part header whose size + padding fits 64 bits *)
Theorem C19_payload_hash : forall sha h f pos room,
  Forall (fun p => wf_part p /\ stored_size p < 2^64) (h_parts h) -> 0 <= pos ->
  let x := compute_payload_hash sha h (file_rd f) pos room in
  (hash_supported (h_hash_kind h) = false -> x = Err E_UNSUPPORTED_HASH_ALG) /\
  (hash_supported (h_hash_kind h) = true ->
     (~ payload_present f pos (h_parts h) -> x = Err E_READ_ERROR) /\
     (payload_present f pos (h_parts h) ->
        (room < digest_len (h_hash_kind h) -> x = Err E_SIZE_ERROR) /\
        (digest_len (h_hash_kind h) <= room -> x = Ok (sha (h_hash_kind h) (hashed_payload f pos (h_parts h)))))).
Proof. exact payload_hash_spec. Qed.
Print Assumptions C19_payload_hash.
(* in a table without holes the hashed areas are the parts' own areas *)
Theorem C19_hashed_areas_are_part_areas : forall h live x q,
  parts_are (h_parts h) live -> Forall wf_part (h_parts h) -> 4096 + sum_sizes live < 2^63 ->
  In (x, q) (hashed_parts 4096 (h_parts h)) -> part_offset h x = q /\ part_size x = stored_size x.
Proof. exact hashed_at_part_offset. Qed.
Print Assumptions C19_hashed_areas_are_part_areas.
(* false of the code for tables with holes, which bpak_valid_header accepts:
   the hash covers bytes that belong to no part *)
Theorem C19_hashed_areas_with_holes_refuted : exists h f1 f2,
  valid_header h = Ok tt /\
  (forall p, In p (used (h_parts h)) ->
     slice (part_offset h p) (part_size p) f1 = slice (part_offset h p) (part_size p) f2) /\
  hashed_payload f1 4096 (h_parts h) <> hashed_payload f2 4096 (h_parts h) /\
  compute_payload_hash toy_sha h (file_rd f1) 4096 64 <> compute_payload_hash toy_sha h (file_rd f2) 4096 64.
Proof. exact (ex_intro _ _ (ex_intro _ _ (ex_intro _ _ hole_disagrees))). Qed.
Print Assumptions C19_hashed_areas_with_holes_refuted.
Example C19_instance : Forall (fun p => wf_part p /\ stored_size p < 2^64) (h_parts vw_header) /\
  parts_are (h_parts vw_header) vw_parts /\ payload_present vw_file 4096 (h_parts vw_header) /\
  hashed_payload vw_file 4096 (h_parts vw_header) = repeat 1 (Z.to_nat 1024) ++ repeat 3 (Z.to_nat 512).
Proof. split; [exact vw_sizes_ok|]. split; [exact vw_parts_are|]. split; [exact vw_present|]. vm_compute. reflexivity. Qed.

(* ---- C20 ---- *)
Theorem C20_header_hash : forall sha h room, wf_header h -> hash_supported (h_hash_kind h) = true ->
  digest_len (h_hash_kind h) <= room ->
  compute_header_hash sha h room = Ok (Some (sha (h_hash_kind h) (enc_header (unsigned h)))).
Proof. exact header_hash_spec. Qed.
Print Assumptions C20_header_hash.
Theorem C20_header_hash_input_injective : forall h1 h2, wf_header h1 -> wf_header h2 ->
  (enc_header (unsigned h1) = enc_header (unsigned h2) <-> unsigned h1 = unsigned h2).
Proof. exact header_hash_input_inj. Qed.
Print Assumptions C20_header_hash_input_injective.
Example C20_instance : wf_header vw_header /\ hash_supported (h_hash_kind vw_header) = true /\
  unsigned (with_signature vw_header (repeat 9 512) 70) = unsigned vw_header /\
  unsigned (set_key_id vw_header 1) <> unsigned vw_header.
Proof. split; [exact vw_header_wf|]. split; [reflexivity|]. split; [reflexivity|]. discriminate. Qed.

(* ---- C21 ---- *)
(* false of the code: BPAK_OK without a digest *)
Theorem C21_header_hash_failure_refuted : forall sha h room, hash_supported (h_hash_kind h) = true ->
  room < digest_len (h_hash_kind h) -> compute_header_hash sha h room = Ok None.
Proof. exact header_hash_silent. Qed.
Print Assumptions C21_header_hash_failure_refuted.
(* missing: the too small buffer (refuted above) *)
Theorem C21_header_hash_failure_partial : forall sha h room, hash_supported (h_hash_kind h) = false ->
  compute_header_hash sha h room = Err E_UNSUPPORTED_HASH_ALG.
Proof. exact header_hash_unsupported. Qed.
Print Assumptions C21_header_hash_failure_partial.
Example C21_instance : hash_supported (h_hash_kind vw_header) = true /\ 31 < digest_len (h_hash_kind vw_header) /\
  hash_supported 7 = false.
Proof. vm_compute. auto. Qed.

(* ---- C22 ---- *)
Theorem C22_verify_binds : forall (K : Type) sha (sg : sigscheme K), good_hash sha ->
  forall junk1 junk2 p1 p2 key, binding_scheme sg ->
  let h1 := pk_header p1 in let h2 := pk_header p2 in
  wf_header h1 -> wf_header h2 -> sizes_ok (h_parts h1) -> sizes_ok (h_parts h2) ->
  slice 0 (h_signature_sz h1) (h_signature h1) = slice 0 (h_signature_sz h2) (h_signature h2) ->
  pkg_verify sha sg junk1 p1 key = Ok tt -> pkg_verify sha sg junk2 p2 key = Ok tt ->
  hash_collision sha \/
  (unsigned h1 = unsigned h2 /\
   hashed_payload (pk_file p1) 4096 (h_parts h1) = hashed_payload (pk_file p2) 4096 (h_parts h2) /\
   (forall q mi t ti, In q (h_parts h1) -> p_id q <> 0 -> get_meta h1 ID_MERKLE_ROOT_HASH (p_id q) = Ok mi ->
      get_part h1 (part_id_to_hash_tree_id (p_id q)) = Ok ti -> nth_error (h_parts h1) ti = Some t ->
      tree_present (pk_file p1) (part_offset h1 q) (part_size q) (part_offset h1 t) ->
      tree_present (pk_file p2) (part_offset h1 q) (part_size q) (part_offset h1 t) ->
      hash_collision sha \/
      slice (part_offset h1 q) (part_size q) (pk_file p1) = slice (part_offset h1 q) (part_size q) (pk_file p2))).
Proof. exact @verify_binds. Qed.
Print Assumptions C22_verify_binds.
(* exact acceptance condition *)
Theorem C22_verify_decides : forall (K : Type) sha (sg : sigscheme K), good_hash sha ->
  forall junk p key, wf_header (pk_header p) -> sizes_ok (h_parts (pk_header p)) ->
  pkg_verify sha sg junk p key = Ok tt <->
  (let h := pk_header p in let f := pk_file p in
   hash_supported (h_hash_kind h) = true /\ h_signature_sz h <= 512 /\
   sg_verify sg (slice 0 (h_signature_sz h) (h_signature h)) (sha (h_hash_kind h) (enc_header (unsigned h))) (h_hash_kind h) key = Ok true /\
   payload_present f 4096 (h_parts h) /\
   slice 0 (digest_len (h_hash_kind h)) (h_payload_hash h) = sha (h_hash_kind h) (hashed_payload f 4096 (h_parts h)) /\
   verify_trees_loop sha h (file_rd f) 4096 (h_parts h) = Ok tt).
Proof. exact @pkg_verify_ok. Qed.
Print Assumptions C22_verify_decides.
Definition signed_vw : pkg := fst (pkg_sign toy_sha toy_sig [] vw_pkg 42).
Example C22_instance : binding_scheme toy_sig /\ good_hash toy_sha /\
  pkg_verify toy_sha toy_sig [] signed_vw 42 = Ok tt /\
  (* the excluded part may change, nothing else may *)
  pkg_verify toy_sha toy_sig [] (mkPkg (pk_header signed_vw) (splice 5200 [77] (pk_file signed_vw))) 42 = Ok tt /\
  pkg_verify toy_sha toy_sig [] (mkPkg (pk_header signed_vw) (splice 5000 [77] (pk_file signed_vw))) 42 = Err E_BAD_PAYLOAD_HASH /\
  pkg_verify toy_sha toy_sig [] (mkPkg (set_key_id (pk_header signed_vw) 3) (pk_file signed_vw)) 42 = Err E_VERIFY_FAIL.
Proof. split; [exact toy_sig_binding|]. split; [exact toy_sha_good|]. vm_compute. auto. Qed.

(* ---- C23 ---- *)
Theorem C23_sign_then_verify : forall (K : Type) sha (sg : sigscheme K), good_hash sha ->
  forall junk1 junk2 pub_of p key, correct_scheme sg pub_of ->
  let h := pk_header p in let f := pk_file p in
  wf_header h -> sizes_ok (h_parts h) -> 4096 + sum_sizes (h_parts h) < 2^63 ->
  hash_supported (h_hash_kind h) = true -> 4096 <= zlen f ->
  payload_present f 4096 (h_parts h) ->
  let ph := splice 0 (sha (h_hash_kind h) (hashed_payload f 4096 (h_parts h))) (h_payload_hash h) in
  let h1 := with_payload_hash h ph in
  forall s, sg_sign sg (sha (h_hash_kind h) (enc_header (unsigned h1))) (h_hash_kind h) key = Ok s ->
  exists p', pkg_sign sha sg junk1 p key = (p', Ok tt) /\
    pk_header p' = with_signature h1 (s ++ zeros (512 - zlen s)) (zlen s) /\
    zlen (pk_file p') = zlen f /\ zdrop 4096 (pk_file p') = zdrop 4096 f /\
    dec_header (ztake 4096 (pk_file p')) = pk_header p' /\ wf_header (pk_header p') /\
    (* accepted, as far as the hash trees of the package (if any) are right *)
    pkg_verify sha sg junk2 p' (pub_of key) = verify_trees_loop sha h (file_rd f) 4096 (h_parts h).
Proof. exact @sign_then_verify. Qed.
Print Assumptions C23_sign_then_verify.
Theorem C23_failed_sign_keeps_file : forall (K : Type) sha (sg : sigscheme K) junk p key p' x,
  pkg_sign sha sg junk p key = (p', x) -> x <> Ok tt -> pk_file p' = pk_file p.
Proof. exact @sign_failure_keeps_file. Qed.
Print Assumptions C23_failed_sign_keeps_file.
Example C23_instance : correct_scheme toy_sig (fun k => k) /\ wf_header vw_header /\ sizes_ok (h_parts vw_header) /\
  4096 <= zlen vw_file /\ payload_present vw_file 4096 (h_parts vw_header) /\
  verify_trees_loop toy_sha vw_header (file_rd vw_file) 4096 (h_parts vw_header) = Ok tt.
Proof.
  split; [exact toy_sig_correct|]. split; [exact vw_header_wf|]. split; [exact vw_sizes_ok|].
  split; [vm_compute; discriminate|]. split; [exact vw_present|]. vm_compute. reflexivity.
Qed.

(* ---- C24 (copyz: PropertiesHeader.v) ---- *)
Theorem C24_raw_signature_refuted : forall p sig, 512 < zlen sig -> pkg_write_raw_signature p sig = UB.
Proof. exact raw_signature_overflow. Qed.
Print Assumptions C24_raw_signature_refuted.
(* missing: signatures longer than 512 bytes (refuted above) *)
Theorem C24_raw_signature_partial : forall p sig, wf_header (pk_header p) -> zlen sig <= 512 -> bytes_ok sig ->
  4096 <= zlen (pk_file p) ->
  exists p', pkg_write_raw_signature p sig = Ok p' /\
    pk_header p' = with_signature (pk_header p) (sig ++ zeros (512 - zlen sig)) (zlen sig) /\
    ztake 4096 (pk_file p') = enc_header (pk_header p') /\ zdrop 4096 (pk_file p') = zdrop 4096 (pk_file p) /\
    forall n, 0 < zlen sig <= n -> snd (copyz_signature (pk_header p') n) = Ok sig.
Proof. exact raw_signature_ok. Qed.
Print Assumptions C24_raw_signature_partial.
Example C24_raw_instance : wf_header (pk_header vw_pkg) /\ zlen (repeat 8 72) <= 512 /\ 4096 <= zlen (pk_file vw_pkg).
Proof. split; [exact vw_header_wf|]. vm_compute. split; discriminate. Qed.
