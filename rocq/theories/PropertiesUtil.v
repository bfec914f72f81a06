(* PropertiesUtil.v -- C40 (UUIDs), C41 (hex dump), C42, C43 (keystores), C49
   (metadata texts).  Specifications: UtilSpec.v, KeystoreSpec.v. *)
From Coq Require Import Lia String.
From Verif Require Import Base BaseLemmas HeaderModel HeaderSpec MetaProofs HeaderWitness CrcModel HashModel VerifyModel PkgModel PkgSpec
  UtilModel UtilSpec UtilProofs UtilParse UtilMeta KeystoreModel KeystoreSpec KeystoreProofs KeystoreWitness MerkleApi.
Local Open Scope Z_scope.
Local Open Scope list_scope.

(* ---- C40 ---- *)
(* both texts of a UUID are its hyphenated hex form; parsing gives it back *)
Theorem C40_format_then_parse : forall upper u, zlen u = 16 -> bytes_ok u ->
  uuid_text (uuid_unparse_x upper u) u /\
  (if upper then upper_case (uuid_unparse_x upper u) else lower_case (uuid_unparse_x upper u)) /\
  zlen (uuid_unparse_x upper u) = 36 /\
  uuid_parse (uuid_unparse_x upper u) = Ok u.
Proof.
  intros upper u L B. split; [apply unparse_text; assumption|]. split; [|split; [apply unparse_len; assumption|apply parse_unparse; assumption]].
  destruct upper; intros c I; destruct (unparse_case _ u c L B I) as [|[|]]; lia.
Qed.
Print Assumptions C40_format_then_parse.
(* parsing accepts exactly the hyphenated hex form, and then formatting gives
   the text back in lower case *)
Theorem C40_parse_exact : forall s,
  (forall u, uuid_parse s = Ok u <-> uuid_text s u) /\
  ((forall u, ~ uuid_text s u) -> uuid_parse s = Err (-1)) /\
  (forall u, uuid_parse s = Ok u -> uuid_unparse_x false u = map to_lower s).
Proof. intros s. split; [intros u; apply parse_iff|]. split; [apply parse_rejects|intros u; apply unparse_parse]. Qed.
Print Assumptions C40_parse_exact.
Theorem C40_pack_unpack :
  (forall u, zlen u = 16 -> bytes_ok u -> uuid_pack (uuid_unpack u) = u) /\
  (forall u, 0 <= time_low u < 2^32 -> 0 <= time_mid u < 2^16 -> 0 <= time_hi u < 2^16 -> 0 <= clock_seq u < 2^16 ->
     zlen (node u) = 6 -> bytes_ok (node u) -> uuid_unpack (uuid_pack u) = u).
Proof.
  split; [exact pack_unpack|]. intros u A B C D E F. apply unpack_pack. unfold wf_uuid. auto 10.
Qed.
Print Assumptions C40_pack_unpack.
(* uuid_compare orders UUIDs as byte strings *)
Theorem C40_compare : forall u v, zlen u = 16 -> zlen v = 16 -> bytes_ok u -> bytes_ok v ->
  (uuid_compare u v = 0 <-> u = v) /\ (uuid_compare u v < 0 <-> lex_lt u v) /\ (uuid_compare u v > 0 <-> lex_lt v u).
Proof. exact compare_iff. Qed.
Print Assumptions C40_compare.
Theorem C40_is_null : forall u, zlen u = 16 -> (uuid_is_null u = true <-> u = repeat 0 16).
Proof. exact is_null_iff. Qed.
Print Assumptions C40_is_null.
(* bpak_uuid_to_string: refuses buffers below 37 bytes, otherwise writes the
   text and its terminator and nothing else *)
Theorem C40_to_string : forall u buf, zlen u = 16 -> bytes_ok u ->
  (zlen buf < 37 -> uuid_to_string u buf = (buf, Err E_SIZE_ERROR)) /\
  (37 <= zlen buf -> exists s, uuid_to_string u buf = (s ++ [0] ++ zdrop 37 buf, Ok tt) /\
     uuid_text s u /\ lower_case s /\ ~ In 0 s).
Proof.
  intros u buf L B. destruct (to_string_exact u buf L B) as [T1 T2]. split; [exact T1|]. intros H.
  exists (uuid_unparse_x false u). split; [exact (T2 H)|]. split; [apply unparse_text; assumption|].
  split; [|apply not_zero_unparse; assumption].
  intros c I; destruct (unparse_case _ u c L B I) as [|[|]]; lia.
Qed.
Print Assumptions C40_to_string.
Example C40_instance :
  uuid_parse (bytes_of "0123ABcd-0000-ff00-00fe-0102030405ff") = Ok [1;35;171;205;0;0;255;0;0;254;1;2;3;4;5;255] /\
  uuid_unparse_x false [1;35;171;205;0;0;255;0;0;254;1;2;3;4;5;255] = bytes_of "0123abcd-0000-ff00-00fe-0102030405ff" /\
  uuid_parse (bytes_of "0123ABcd-0000-ff00-00fe-0102030405fg") = Err (-1).
Proof. split; [|split]; vm_compute; reflexivity. Qed.

(* ---- C41 ---- *)
(* false of the code: with a buffer of exactly two characters per byte the
   terminator is written past its end, and no buffer makes it return an error *)
Theorem C41_bin2hex_in_bounds_refuted : exists data buf, bytes_ok data /\ zlen buf = 2 * zlen data /\
  snd (bin2hex data buf) = UB.
Proof.
  exists [171; 205], [0; 0; 0; 0]. split; [repeat constructor; cbn; lia|]. split; [reflexivity|]. apply bin2hex_overflows. cbn. lia.
Qed.
Print Assumptions C41_bin2hex_in_bounds_refuted.
Theorem C41_bin2hex_never_reports : forall data buf, zlen buf < 2 * zlen data + 1 -> snd (bin2hex data buf) = UB.
Proof. exact bin2hex_overflows. Qed.
Print Assumptions C41_bin2hex_never_reports.
(* missing: buffers below 2n+1 bytes *)
Theorem C41_bin2hex_partial : forall data buf, bytes_ok data -> 2 * zlen data + 1 <= zlen buf ->
  exists s, bin2hex data buf = (s ++ [0] ++ zdrop (2 * zlen data + 1) buf, Ok tt) /\
    hex_text s data /\ lower_case s /\ ~ In 0 s.
Proof.
  intros data buf B L. eexists. split; [apply bin2hex_fits; exact L|]. split; [apply hex2_text; exact B|].
  split; [intros c I|intros I]; apply hex2_chars in I; lia.
Qed.
Print Assumptions C41_bin2hex_partial.
Example C41_instance : bin2hex [171; 205] [9; 9; 9; 9; 9; 9] = (bytes_of "abcd" ++ [0; 9], Ok tt).
Proof. vm_compute. reflexivity. Qed.

(* ---- C42 ---- *)
(* [keys]: the keys in the table.  The output pointer is the index of the key *)
Theorem C42_keystore_get : forall ks keys id, wf_keystore ks keys ->
  match keystore_get ks id with
  | (Some i, Ok _) => ks_verified ks = true /\ exists k, nth_error (ks_keys ks) i = Some (Some k) /\ nth_error keys i = Some k /\
                        k_id k = id /\ Forall (fun k' => k_id k' <> id) (firstn i keys)
  | (None, Err e) => (ks_verified ks = false /\ e = E_FAILED) \/
                     (ks_verified ks = true /\ e = E_KEY_NOT_FOUND /\ Forall (fun k => k_id k <> id) keys)
  | _ => False
  end.
Proof. exact keystore_get_spec. Qed.
Print Assumptions C42_keystore_get.
Example C42_instance : wf_keystore kw_ks [mkKey 1 5 [1]; mkKey 1 9 [2]; mkKey 1 9 [3]] /\
  keystore_get kw_ks 9 = (Some 1%nat, Ok tt) /\ keystore_get kw_ks 1 = (None, Err E_KEY_NOT_FOUND).
Proof. split; [split; [reflexivity|exists []; reflexivity]|]. split; reflexivity. Qed.

(* ---- C43 ---- *)
(* exactly when a key is returned, for every file *)
Theorem C43_load_exact : forall sha parse f ks kid check k,
  keystore_load_key sha parse f ks kid check = Ok k <->
  exists h q k0, has_header f h /\ (forall c, check = Some c -> c h = 0) /\ provider_id h ks /\
    first_such (fun p => p_id p = kid) (h_parts h) q /\ 0 <= part_offset h q /\
    zlen (slice (part_offset h q) (part_size_wo_pad q) f) = part_size_wo_pad q /\ part_size_wo_pad q <= 512 /\
    parse (slice (part_offset h q) (part_size_wo_pad q) f) = Ok k0 /\ k = with_id k0 kid.
Proof. exact load_iff. Qed.
Print Assumptions C43_load_exact.
(* the key stored in a keystore package is the key that is loaded; a wrong
   keystore id and a missing key are told apart *)
Theorem C43_load_stored_key : forall sha parse p (a : list (parth * bytes)) q (d : bytes) pad (b : list (parth * bytes)) live v check,
  holds p (a ++ (q, d ++ zeros pad) :: b) -> Z.testbit (p_flags q) 1 = false -> p_size q = zlen d -> zlen d <= 512 ->
  valid_header (pk_header p) = Ok tt ->
  metas_are (h_meta (pk_header p)) (h_metadata (pk_header p)) live -> In (mkEntry ID_KEYSTORE_PROVIDER_ID 0 v) live -> zlen v = 4 ->
  (forall c, check = Some c -> c (pk_header p) = 0) ->
  keystore_load_key sha parse (pk_file p) (unle v) (p_id q) check =
    match parse d with Ok k => Ok (with_id k (p_id q)) | Err e => Err e | UB => UB | Stuck => Stuck end.
Proof.
  intros sha parse p a q d pad b live v check H T S L V M I Lv C.
  destruct (load_stored sha parse p a q d pad b live v check H T S V M I Lv C) as [A _]. rewrite (A L).
  destruct (parse d); reflexivity.
Qed.
Print Assumptions C43_load_stored_key.
Theorem C43_load_errors : forall sha parse p (es : list (parth * bytes)) live v ks kid check,
  holds p es -> valid_header (pk_header p) = Ok tt ->
  metas_are (h_meta (pk_header p)) (h_metadata (pk_header p)) live -> (forall c, check = Some c -> c (pk_header p) = 0) ->
  (~ In (ID_KEYSTORE_PROVIDER_ID, 0) (map (fun e => (e_id e, e_ref e)) live) ->
   keystore_load_key sha parse (pk_file p) ks kid check = Err E_NOT_FOUND) /\
  (In (mkEntry ID_KEYSTORE_PROVIDER_ID 0 v) live -> zlen v = 4 ->
   (unle v <> ks -> keystore_load_key sha parse (pk_file p) ks kid check = Err E_KEYSTORE_ID_MISMATCH) /\
   (unle v = ks -> kid <> 0 -> ~ In kid (map (fun e : parth * bytes => p_id (fst e)) es) ->
    keystore_load_key sha parse (pk_file p) ks kid check = Err E_NOT_FOUND)).
Proof. exact load_wrong. Qed.
Print Assumptions C43_load_errors.
(* false of the code: a valid keystore package with a key part above 512 bytes
   overruns the key buffer *)
Theorem C43_key_buffer_refuted : exists sha parse p es ks kid,
  holds p es /\ valid_header (pk_header p) = Ok tt /\ (forall d, parse d <> UB) /\
  keystore_load_key sha parse (pk_file p) ks kid None = UB.
Proof.
  exists toy_sha, (fun d => Ok (mkKey 1 0 d)), (kw_pkg 600 424). eexists. exists (unle (le 4 7)), 5.
  destruct kw_holds_600 as [H V]. split; [exact H|]. split; [exact V|]. split; [discriminate|].
  destruct (load_stored toy_sha (fun d => Ok (mkKey 1 0 d)) (kw_pkg 600 424) [] (kw_part 600 424) (kw_key 600) 424 [] kw_live (le 4 7) None)
    as [_ A]; auto.
  - apply kw_metas.
  - left. reflexivity.
  - intros c X. discriminate.
Qed.
Print Assumptions C43_key_buffer_refuted.
(* missing: files with more than 512 bytes of the key part, or a provider id
   entry that points outside the metadata block (C08) *)
Theorem C43_load_safe_partial : forall sha parse f ks kid check h,
  (forall d, parse d <> UB) -> has_header f h ->
  (forall m, first_such (fun m => m_id m = ID_KEYSTORE_PROVIDER_ID /\ m_ref m = 0) (h_meta h) m -> m_offset m + 4 <= 1920) ->
  (forall q, first_such (fun p => p_id p = kid) (h_parts h) q -> zlen (slice (part_offset h q) (part_size_wo_pad q) f) <= 512) ->
  keystore_load_key sha parse f ks kid check <> UB.
Proof. exact load_safe. Qed.
Print Assumptions C43_load_safe_partial.
Example C43_instance :
  holds (kw_pkg 100 412) ([] ++ (kw_part 100 412, kw_key 100 ++ zeros 412) :: []) /\
  valid_header (pk_header (kw_pkg 100 412)) = Ok tt /\
  metas_are (h_meta (kw_header 100 412)) (h_metadata (kw_header 100 412)) kw_live /\ unle (le 4 7) = 7 /\
  keystore_load_key toy_sha (fun d => Ok (mkKey 1 0 d)) (pk_file (kw_pkg 100 412)) 7 5 None = Ok (mkKey 1 5 (kw_key 100)) /\
  keystore_load_key toy_sha (fun d => Ok (mkKey 1 0 d)) (pk_file (kw_pkg 100 412)) 8 5 None = Err E_KEYSTORE_ID_MISMATCH.
Proof.
  split; [exact (proj1 kw_holds_100)|]. split; [exact (proj2 kw_holds_100)|]. split; [apply kw_metas|].
  split; [reflexivity|]. split; vm_compute; reflexivity.
Qed.

(* ---- C49 ---- *)
(* false of the code, three ways: a hash in a 64-byte buffer is written past
   its end; a version text is copied without a terminator; a uuid in a small
   buffer is reported as written although the buffer is untouched *)
Theorem C49_meta_to_string_refuted :
  (exists h buf m, valid_header h = Ok tt /\ nth_error (h_meta h) 0 = Some m /\ m_id m = ID_MERKLE_SALT /\ m_size m = 32 /\
     zlen buf = 64 /\ snd (meta_to_string h 0 buf) = UB) /\
  (exists h buf m buf', valid_header h = Ok tt /\ nth_error (h_meta h) 0 = Some m /\ m_id m = ID_BPAK_VERSION /\
     meta_to_string h 0 buf = (buf', Ok tt) /\ ~ In 0 buf') /\
  (exists h buf m, valid_header h = Ok tt /\ nth_error (h_meta h) 0 = Some m /\ m_id m = ID_BPAK_PACKAGE /\ m_size m = 16 /\
     ~ In 0 buf /\ zlen buf = 36 /\ meta_to_string h 0 buf = (buf, Ok tt)).
Proof.
  split; [|split].
  - exists (uw_header ID_MERKLE_SALT 32 (repeat 1 32)), (repeat 7 64). eexists.
    split; [vm_compute; reflexivity|]. split; [reflexivity|]. do 3 (split; [reflexivity|]). vm_compute. reflexivity.
  - exists (uw_header ID_BPAK_VERSION 5 [49; 46; 48; 46; 49]), (repeat 7 8). do 2 eexists.
    split; [vm_compute; reflexivity|]. split; [reflexivity|]. split; [reflexivity|]. split; [vm_compute; reflexivity|].
    cbn. intuition discriminate.
  - exists (uw_header ID_BPAK_PACKAGE 16 (repeat 1 16)), (repeat 7 36). eexists.
    split; [vm_compute; reflexivity|]. split; [reflexivity|]. split; [reflexivity|]. split; [reflexivity|].
    split; [intros I; apply repeat_spec in I; discriminate|]. split; [reflexivity|]. vm_compute. reflexivity.
Qed.
Print Assumptions C49_meta_to_string_refuted.
(* missing: buffers below 37 bytes (65 for a salt or a root hash), BPAK_VERSION
   entries (exact below), entries smaller than their type *)
Theorem C49_meta_to_string_partial : forall h i m buf,
  nth_error (h_meta h) i = Some m -> bytes_ok (h_metadata h) -> zlen (h_metadata h) = METADATA_BYTES ->
  0 <= m_offset m -> m_offset m + m_size m <= METADATA_BYTES -> expected_size (m_id m) <= m_size m ->
  37 <= zlen buf -> (m_id m = ID_MERKLE_SALT \/ m_id m = ID_MERKLE_ROOT_HASH -> 65 <= zlen buf) -> m_id m <> ID_BPAK_VERSION ->
  exists buf' s, meta_to_string h i buf = (buf', Ok tt) /\ holds_string buf' s /\ zlen buf' = zlen buf /\
    entry_text (m_id m) (zdrop (m_offset m) (h_metadata h)) s.
Proof. exact meta_to_string_fits. Qed.
Print Assumptions C49_meta_to_string_partial.
Theorem C49_version_exact : forall h i m buf,
  nth_error (h_meta h) i = Some m -> m_id m = ID_BPAK_VERSION ->
  zlen (h_metadata h) = METADATA_BYTES -> 0 <= m_offset m -> 0 <= m_size m -> m_offset m + m_size m <= METADATA_BYTES ->
  (zlen buf < m_size m -> meta_to_string h i buf = (buf, Err E_SIZE_ERROR)) /\
  (m_size m <= zlen buf -> meta_to_string h i buf =
     (slice (m_offset m) (m_size m) (h_metadata h) ++ zdrop (m_size m) buf, Ok tt)).
Proof. exact version_exact. Qed.
Print Assumptions C49_version_exact.
Theorem C49_hash_overflow_exact : forall h i m buf,
  nth_error (h_meta h) i = Some m -> m_id m = ID_MERKLE_SALT \/ m_id m = ID_MERKLE_ROOT_HASH ->
  zlen (h_metadata h) = METADATA_BYTES -> 0 <= m_offset m -> m_offset m + 32 <= METADATA_BYTES -> zlen buf < 65 ->
  snd (meta_to_string h i buf) = UB.
Proof. exact salt_overflow. Qed.
Print Assumptions C49_hash_overflow_exact.
Example C49_instance :
  let h := uw_header ID_BPAK_TRANSPORT 8 [1; 2; 0; 0; 255; 0; 0; 0] in
  nth_error (h_meta h) 0 = Some (mkMeta ID_BPAK_TRANSPORT 8 0 0 [0;0;0;0]) /\ bytes_ok (h_metadata h) /\
  zlen (h_metadata h) = METADATA_BYTES /\ expected_size ID_BPAK_TRANSPORT = 8 /\
  fst (meta_to_string h 0 (repeat 7 65)) = bytes_of "Encode: 00000201, Decode: 000000ff" ++ [0] ++ repeat 7 30.
Proof.
  cbv zeta. split; [reflexivity|]. split; [apply bytes_okb_ok; vm_compute; reflexivity|]. split; [reflexivity|].
  split; [reflexivity|]. vm_compute. reflexivity.
Qed.
