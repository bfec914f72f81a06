(* PropertiesHeader.v -- C01..C10, C24 (copyz), C44.  Theorems only; each is
   closed by [exact] of a lemma, with its assumptions printed, and followed by
   an Example instantiating its hypotheses. *)
From Coq Require Import String.
From Verif Require Import BaseLemmas HeaderModel HeaderSpec HeaderOps CodecProofs PartProofs
  MetaProofs HeaderHistory HeaderWitness.

(* ---- C01 ---- *)
Theorem C01_header_roundtrip : forall h, wf_header h ->
  zlen (enc_header h) = 4096 /\ bytes_ok (enc_header h) /\ dec_header (enc_header h) = h.
Proof. exact (fun h W => conj (zlen_enc_header h W) (conj (bytes_ok_enc_header h W) (dec_enc_header h W))). Qed.
Print Assumptions C01_header_roundtrip.

Theorem C01_header_parse_any : forall b, zlen b = 4096 -> bytes_ok b ->
  wf_header (dec_header b) /\ enc_header (dec_header b) = b.
Proof. exact (fun b L O => conj (wf_dec_header b L O) (enc_dec_header b L O)). Qed.
Print Assumptions C01_header_parse_any.

Theorem C01_header_layout : forall h, wf_header h ->
  (forall i m, nth_error (h_meta h) i = Some m ->
     slice (8 + 16 * Z.of_nat i) 16 (enc_header h) = enc_meta m) /\
  (forall i p, nth_error (h_parts h) i = Some p ->
     slice (520 + 32 * Z.of_nat i) 32 (enc_header h) = enc_part p) /\
  (let b := enc_header h in
   slice 0 4 b = le 4 (h_magic h) /\ slice 1544 1920 b = h_metadata h /\
   slice 3464 1 b = [h_hash_kind h] /\ slice 3465 1 b = [h_signature_kind h] /\
   slice 3466 2 b = le 2 (h_alignment h) /\ slice 3468 64 b = h_payload_hash h /\
   slice 3532 4 b = le 4 (h_key_id h) /\ slice 3536 4 b = le 4 (h_keystore_id h) /\
   slice 3582 512 b = h_signature h /\ slice 4094 2 b = le 2 (h_signature_sz h)).
Proof.
  exact (fun h W => conj (fun i m H => header_meta_at h i m W H)
                   (conj (fun i p H => header_part_at h i p W H) (header_fixed_at h W))).
Qed.
Print Assumptions C01_header_layout.
Example C01_instance : wf_header example_header.
Proof. exact example_header_wf. Qed.

(* ---- C02 ---- *)
Theorem C02_part_table_is_ordered_map : forall os,
  Forall (fun o => part_op_id o <> 0) os ->
  let (h, xs) := run_parts init_header os in
  let (live, ys) := spec_parts [] os in
  xs = ys /\ parts_are (h_parts h) live /\ h = with_parts init_header (h_parts h) /\
  (forall id i, id <> 0 ->
     (get_part h id = Ok i <->
      exists p, nth_error live i = Some p /\ p_id p = id /\ nth_error (h_parts h) i = Some p)) /\
  (forall id, id <> 0 ->
     (get_part h id = Err E_NOT_FOUND <-> forall p, In p live -> p_id p <> id)).
Proof. exact part_history. Qed.
Print Assumptions C02_part_table_is_ordered_map.
Example C02_instance : Forall (fun o => part_op_id o <> 0) example_part_ops /\
  snd (run_parts init_header example_part_ops) =
    [Ok tt; Ok tt; Err E_EXISTS; Ok tt; Ok tt; Err E_NOT_FOUND; Ok tt].
Proof. exact example_part_ops_ok. Qed.

(* ---- C03 ---- *)
Theorem C03_del_part_exact : forall h a p b i,
  parts_are (h_parts h) (a ++ p :: b) -> length a = i ->
  exists h', del_part h i = Ok h' /\ parts_are (h_parts h') (a ++ b) /\
             h' = with_parts h (h_parts h').
Proof. exact del_part_exact. Qed.
Print Assumptions C03_del_part_exact.
(* a full table, last index *)
Example C03_instance : exists a p b, parts_are full_parts (a ++ p :: b) /\ length a = 31%nat.
Proof. exact full_parts_ok. Qed.

(* ---- C04 ---- *)
Theorem C04_metadata_history : forall os h xs,
  Forall meta_op_ok os -> run_metas init_header os = (h, xs) ->
  ~ In (Err E_NO_SPACE_LEFT) xs -> ~ In UB xs ->
  exists live, spec_metas [] os xs live /\ metas_are (h_meta h) (h_metadata h) live /\
               same_but_meta init_header h.
Proof. exact meta_history. Qed.
Print Assumptions C04_metadata_history.

Theorem C04_metadata_disjoint_aligned_found : forall h live,
  metas_are (h_meta h) (h_metadata h) live ->
  (forall e, In e live -> exists i m,
     get_meta h (e_id e) (e_ref e) = Ok i /\ nth_error (h_meta h) i = Some m /\
     m_id m = e_id e /\ m_ref m = e_ref e /\ m_size m = zlen (e_val e) /\
     m_offset m mod 8 = 0 /\ 0 <= m_offset m /\ m_offset m + m_size m <= 1920 /\
     slice (m_offset m) (m_size m) (h_metadata h) = e_val e) /\
  (forall id ref, id <> 0 -> ~ In (id, ref) (map e_key live) -> get_meta h id ref = Err E_NOT_FOUND) /\
  (forall i j m n, (i < j < length live)%nat ->
     nth_error (h_meta h) i = Some m -> nth_error (h_meta h) j = Some n ->
     m_offset m + m_size m <= m_offset n).
Proof. exact metas_are_client. Qed.
Print Assumptions C04_metadata_disjoint_aligned_found.
Example C04_instance : Forall meta_op_ok example_meta_ops /\
  snd (run_metas init_header example_meta_ops) = [Ok tt; Ok tt; Ok tt; Err E_EXISTS; Ok tt; Ok tt].
Proof. exact example_meta_ops_ok. Qed.

(* ---- C05: false of the code ---- *)
Theorem C05_add_meta_atomic_refuted : exists id ref size h',
  add_meta init_header id ref size = (h', Err E_NO_SPACE_LEFT) /\ h' <> init_header /\
  valid_header init_header = Ok tt /\ valid_header h' = Err E_SIZE_ERROR.
Proof. exact add_meta_not_atomic. Qed.
Print Assumptions C05_add_meta_atomic_refuted.
(* missing for the full property: NO_SPACE_LEFT because the data block is full *)
Theorem C05_add_meta_atomic_partial : forall h id ref size h' e,
  add_meta h id ref size = (h', Err e) ->
  (e = E_EXISTS \/ (e = E_NO_SPACE_LEFT /\ Forall (fun m => m_id m <> 0) (h_meta h)) -> h' = h) /\
  (e = E_EXISTS \/ e = E_NO_SPACE_LEFT).
Proof. exact add_meta_fail. Qed.
Print Assumptions C05_add_meta_atomic_partial.
Example C05_instance : exists h, add_meta two_meta_header 2 0 8 = (h, Err E_EXISTS).
Proof. exact two_meta_exists. Qed.

(* ---- C06: false of the code ---- *)
Theorem C06_del_meta_keeps_others_refuted : exists h i h' m m',
  metas_are (h_meta h) (h_metadata h) two_entries /\ (length two_entries < 32)%nat /\
  get_meta h 1 0 = Ok i /\ del_meta h i = Ok h' /\
  get_meta h 2 0 = Ok 1%nat /\ nth_error (h_meta h) 1 = Some m /\
  get_meta h' 2 0 = Ok 0%nat /\ nth_error (h_meta h') 0 = Some m' /\
  m_size m' = m_size m /\
  slice (m_offset m') (m_size m') (h_metadata h') <> slice (m_offset m) (m_size m) (h_metadata h).
Proof. exact del_meta_corrupts. Qed.
Print Assumptions C06_del_meta_keeps_others_refuted.
(* exact effect: values after the deleted one keep only their first align8(size) bytes *)
Theorem C06_del_meta_exact_partial : forall h a id ref v b,
  metas_are (h_meta h) (h_metadata h) (a ++ mkEntry id ref v :: b) ->
  (length (a ++ mkEntry id ref v :: b) < 32)%nat ->
  exists h', del_meta h (length a) = Ok h' /\
    metas_are (h_meta h') (h_metadata h')
      (a ++ map (fun e => mkEntry (e_id e) (e_ref e) (del_value (align8 (zlen v)) (e_val e))) b) /\
    h' = with_metadata (with_meta h (h_meta h')) (h_metadata h').
Proof. exact del_meta_exact. Qed.
Print Assumptions C06_del_meta_exact_partial.
Theorem C06_del_meta_keeps_others_partial : forall h a id ref v b,
  metas_are (h_meta h) (h_metadata h) (a ++ mkEntry id ref v :: b) ->
  (length (a ++ mkEntry id ref v :: b) < 32)%nat ->
  (forall e, In e b -> zlen (e_val e) <= align8 (zlen v)) ->
  exists h', del_meta h (length a) = Ok h' /\
    metas_are (h_meta h') (h_metadata h') (a ++ b) /\
    h' = with_metadata (with_meta h (h_meta h')) (h_metadata h').
Proof. exact del_meta_keeps_small. Qed.
Print Assumptions C06_del_meta_keeps_others_partial.
Example C06_instance :
  metas_are (h_meta two_meta_header) (h_metadata two_meta_header)
    ([mkEntry 1 0 (repeat 7 8)] ++ mkEntry 2 0 (map Z.of_nat (seq 1 24)) :: []) /\
  (length two_entries < 32)%nat.
Proof. exact two_meta_ok. Qed.

(* ---- C07: false of the code ---- *)
Theorem C07_del_meta_in_table_refuted :
  wf_header full_meta_header /\ valid_header full_meta_header = Ok tt /\
  (forall i, (i < 32)%nat -> del_meta full_meta_header i = UB).
Proof. exact full_meta_ub. Qed.
Print Assumptions C07_del_meta_in_table_refuted.
(* every table without an unused slot after the deleted entry *)
Theorem C07_del_meta_full_table : forall h i,
  Forall (fun m => m_id m <> 0) (skipn (S i) (h_meta h)) -> del_meta h i = UB.
Proof. exact del_meta_full_ub. Qed.
Print Assumptions C07_del_meta_full_table.
Theorem C07_del_meta_in_table_partial : forall h a id ref v b,
  metas_are (h_meta h) (h_metadata h) (a ++ mkEntry id ref v :: b) ->
  (length (a ++ mkEntry id ref v :: b) < 32)%nat ->
  exists h', del_meta h (length a) = Ok h' /\ same_but_meta h h' /\
    get_meta h' id ref = Err E_NOT_FOUND.
Proof. exact del_meta_gone. Qed.
Print Assumptions C07_del_meta_in_table_partial.

(* ---- C08: false of the code ---- *)
Theorem C08_valid_header_safe_refuted : exists h id i m,
  wf_header h /\ valid_header h = Ok tt /\ get_meta h id 0 = Ok i /\
  nth_error (h_meta h) i = Some m /\ m_offset m + m_size m > 1920 /\
  meta_read h i 0 (m_size m) = UB.
Proof. exact hole_header_unsafe. Qed.
Print Assumptions C08_valid_header_safe_refuted.
(* missing: headers with a used metadata/part slot after an unused one *)
Theorem C08_valid_header_safe_partial : forall h id ref (anyref : bool) i,
  valid_header h = Ok tt -> no_holes m_id (h_meta h) -> id <> 0 ->
  get_meta_int h id ref (negb anyref) = Ok i ->
  exists m, nth_error (h_meta h) i = Some m /\ m_id m = id /\ m_offset m + m_size m <= 1920.
Proof. exact valid_header_safe_meta. Qed.
Print Assumptions C08_valid_header_safe_partial.
Theorem C08_valid_header_part_safe_partial : forall h id i,
  valid_header h = Ok tt -> no_holes p_id (h_parts h) -> id <> 0 -> get_part h id = Ok i ->
  exists p, nth_error (h_parts h) i = Some p /\ p_id p = id /\
            ((p_size p + p_pad_bytes p) mod 2^64) mod 512 = 0.
Proof. exact valid_header_safe_part. Qed.
Print Assumptions C08_valid_header_part_safe_partial.
Example C08_instance : valid_header two_meta_header = Ok tt /\ no_holes m_id (h_meta two_meta_header) /\
  get_meta two_meta_header 2 0 = Ok 1%nat.
Proof. exact two_meta_valid. Qed.

(* ---- C09 ---- *)
Theorem C09_valid_header_iff : forall h,
  valid_header h = Ok tt <->
  h_magic h = 1112555826 /\ parts_aligned h /\ metas_in_bounds h /\ h_hash_kind h <> 0.
Proof. exact valid_header_iff. Qed.
Print Assumptions C09_valid_header_iff.
Theorem C09_valid_header_errors : forall h e,
  valid_header h = Err e <->
  (e = E_BAD_MAGIC /\ h_magic h <> 1112555826) \/
  (e = E_BAD_ALIGNMENT /\ h_magic h = 1112555826 /\ ~ parts_aligned h) \/
  (e = E_SIZE_ERROR /\ h_magic h = 1112555826 /\ parts_aligned h /\ ~ metas_in_bounds h) \/
  (e = E_NOT_SUPPORTED /\ h_magic h = 1112555826 /\ parts_aligned h /\ metas_in_bounds h /\ h_hash_kind h = 0).
Proof. exact valid_header_error. Qed.
Print Assumptions C09_valid_header_errors.
Theorem C09_api_headers_valid : forall h live ps,
  h_magic h = 1112555826 -> h_hash_kind h <> 0 ->
  metas_are (h_meta h) (h_metadata h) live -> parts_are (h_parts h) ps ->
  Forall (fun p => (p_size p + p_pad_bytes p) mod 512 = 0) ps -> valid_header h = Ok tt.
Proof. exact api_header_valid. Qed.
Print Assumptions C09_api_headers_valid.
Example C09_instance : valid_header init_header = Ok tt.
Proof. vm_compute; reflexivity. Qed.

(* ---- C10 ---- *)
Theorem C10_part_offset_is_prefix_sum : forall h a p b,
  parts_are (h_parts h) (a ++ p :: b) -> Forall wf_part (h_parts h) ->
  4096 + sum_sizes a < 2^63 -> part_offset h p = 4096 + sum_sizes a.
Proof. exact part_offset_prefix. Qed.
Print Assumptions C10_part_offset_is_prefix_sum.
Theorem C10_part_areas_disjoint : forall h live i j p q,
  parts_are (h_parts h) live -> Forall wf_part (h_parts h) ->
  4096 + sum_sizes live < 2^63 ->
  nth_error live i = Some p -> nth_error live j = Some q -> (i < j)%nat ->
  4096 <= part_offset h p /\ part_offset h p + part_size p <= part_offset h q /\
  part_offset h q + part_size q <= 4096 + sum_sizes live.
Proof. exact parts_disjoint. Qed.
Print Assumptions C10_part_areas_disjoint.
Example C10_instance : exists a p b q, parts_are (h_parts example_header) (a ++ p :: b ++ [q]) /\
  Forall wf_part (h_parts example_header) /\ 4096 + sum_sizes (a ++ p :: b ++ [q]) < 2^63.
Proof. exact example_header_parts. Qed.

(* ---- C24 (signature extraction) ---- *)
Theorem C24_copyz_signature : forall h n, wf_header h ->
  (1 <= h_signature_sz h <= Z.min 512 n ->
     copyz_signature h n = (with_signature h (zeros 512) 0, Ok (ztake (h_signature_sz h) (h_signature h))) /\
     zlen (ztake (h_signature_sz h) (h_signature h)) = h_signature_sz h) /\
  (~ 1 <= h_signature_sz h <= Z.min 512 n -> copyz_signature h n = (h, Err E_SIZE_ERROR)).
Proof. exact copyz_signature_spec. Qed.
Print Assumptions C24_copyz_signature.

(* ---- C44 ---- *)
Theorem C44_error_strings : forall c,
  (-30 <= c <= 0 -> error_string c <> "Unknown"%string /\ error_string c <> ""%string) /\
  (~ (-30 <= c <= 0) -> error_string c = "Unknown"%string) /\
  (forall d, -30 <= c <= 0 -> -30 <= d <= 0 -> error_string c = error_string d -> c = d).
Proof.
  exact (fun c => conj (error_string_known c) (conj (error_string_unknown c) (fun d => error_string_inj c d))).
Qed.
Print Assumptions C44_error_strings.
