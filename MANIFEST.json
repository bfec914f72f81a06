{
 "claims": [
  {
   "property": "C01",
   "status": "proved",
   "theorems": [
    "C01_header_roundtrip",
    "C01_header_parse_any",
    "C01_header_layout"
   ],
   "note": ""
  },
  {
   "property": "C02",
   "status": "proved",
   "theorems": [
    "C02_part_table_is_ordered_map"
   ],
   "note": ""
  },
  {
   "property": "C03",
   "status": "proved",
   "theorems": [
    "C03_del_part_exact"
   ],
   "note": ""
  },
  {
   "property": "C04",
   "status": "proved",
   "theorems": [
    "C04_metadata_history",
    "C04_metadata_disjoint_aligned_found"
   ],
   "note": ""
  },
  {
   "property": "C05",
   "status": "partial",
   "theorems": [
    "C05_add_meta_atomic_refuted",
    "C05_add_meta_atomic_partial"
   ],
   "note": "False of the code: NO_SPACE_LEFT because of the data block leaves the slot written."
  },
  {
   "property": "C06",
   "status": "partial",
   "theorems": [
    "C06_del_meta_keeps_others_refuted",
    "C06_del_meta_exact_partial",
    "C06_del_meta_keeps_others_partial"
   ],
   "note": "False of the code: values longer than the aligned size of the deleted entry lose their tail. Exact effect proved."
  },
  {
   "property": "C07",
   "status": "partial",
   "theorems": [
    "C07_del_meta_in_table_refuted",
    "C07_del_meta_full_table",
    "C07_del_meta_in_table_partial"
   ],
   "note": "False of the code for tables without a free slot after the entry."
  },
  {
   "property": "C08",
   "status": "partial",
   "theorems": [
    "C08_valid_header_safe_refuted",
    "C08_valid_header_safe_partial",
    "C08_valid_header_part_safe_partial"
   ],
   "note": "False of the code: entries after an unused slot are not checked."
  },
  {
   "property": "C09",
   "status": "proved",
   "theorems": [
    "C09_valid_header_iff",
    "C09_valid_header_errors",
    "C09_api_headers_valid"
   ],
   "note": ""
  },
  {
   "property": "C10",
   "status": "proved",
   "theorems": [
    "C10_part_offset_is_prefix_sum",
    "C10_part_areas_disjoint"
   ],
   "note": ""
  },
  {
   "property": "C11",
   "status": "proved",
   "theorems": [
    "C11_id_is_crc32",
    "C11_crc32_any_initial_value",
    "C11_well_known_ids"
   ],
   "note": ""
  },
  {
   "property": "C12",
   "status": "proved",
   "theorems": [
    "C12_hash_tree_id_of_name",
    "C12_hash_tree_id_inverse"
   ],
   "note": ""
  },
  {
   "property": "C13",
   "status": "proved",
   "theorems": [
    "C13_near_names_have_distinct_ids",
    "C13_hash_tree_ids_distinct"
   ],
   "note": ""
  },
  {
   "property": "C14",
   "status": "proved",
   "theorems": [
    "C14_merkle_size"
   ],
   "note": ""
  },
  {
   "property": "C15",
   "status": "proved",
   "theorems": [
    "C15_merkle_chunking"
   ],
   "note": "Ranges over inputs of at most the declared size."
  },
  {
   "property": "C16",
   "status": "proved",
   "theorems": [
    "C16_merkle_tree_and_root",
    "C16_specified_tree_exists"
   ],
   "note": ""
  },
  {
   "property": "C17",
   "status": "partial",
   "theorems": [
    "C17_size_init_agree_refuted",
    "C17_size_init_agree_partial"
   ],
   "note": "False of the code for sizes above 8 GiB."
  },
  {
   "property": "C18",
   "status": "partial",
   "theorems": [
    "C18_verify_decides",
    "C18_verify_complete",
    "C18_every_tree_byte_checked_refuted",
    "C18_verify_sound_partial"
   ],
   "note": "False of the code for the padding of a one-block tree; everything else proved modulo a SHA-256 collision."
  },
  {
   "property": "C19",
   "status": "partial",
   "theorems": [
    "C19_payload_hash",
    "C19_hashed_areas_are_part_areas",
    "C19_hashed_areas_with_holes_refuted"
   ],
   "note": "Proved for every header; that the hashed areas are the parts' areas is false for tables with holes."
  },
  {
   "property": "C20",
   "status": "proved",
   "theorems": [
    "C20_header_hash",
    "C20_header_hash_input_injective"
   ],
   "note": ""
  },
  {
   "property": "C21",
   "status": "partial",
   "theorems": [
    "C21_header_hash_failure_refuted",
    "C21_header_hash_failure_partial"
   ],
   "note": "False of the code: a too small buffer gives BPAK_OK."
  },
  {
   "property": "C22",
   "status": "proved",
   "theorems": [
    "C22_verify_binds",
    "C22_verify_decides"
   ],
   "note": "The signature scheme is a parameter; 'binds' is the hypothesis binding_scheme."
  },
  {
   "property": "C23",
   "status": "proved",
   "theorems": [
    "C23_sign_then_verify",
    "C23_failed_sign_keeps_file"
   ],
   "note": "The signature scheme is a parameter; its correctness is the hypothesis correct_scheme."
  },
  {
   "property": "C24",
   "status": "partial",
   "theorems": [
    "C24_copyz_signature",
    "C24_raw_signature_refuted",
    "C24_raw_signature_partial"
   ],
   "note": "False of the code: bpak_pkg_write_raw_signature copies more than 512 bytes unchecked."
  },
  {
   "property": "C25",
   "status": "partial",
   "theorems": [
    "C25_add_then_extract_refuted",
    "C25_add_then_extract_partial",
    "C25_package_is_a_list_of_files_partial"
   ],
   "note": "False of the code for packages that hold transport-encoded parts (new data is written at the wrong offset); proved for all others, and for every history."
  },
  {
   "property": "C26",
   "status": "partial",
   "theorems": [
    "C26_add_preserves_refuted",
    "C26_add_preserves_partial",
    "C26_failed_add_changes_nothing"
   ],
   "note": "As C25."
  },
  {
   "property": "C27",
   "status": "partial",
   "theorems": [
    "C27_delete_part_full_metadata_refuted",
    "C27_delete_part_terminates_refuted",
    "C27_delete_part_partial",
    "C27_delete_missing_part",
    "C27_part_zero_hangs"
   ],
   "note": "False of the code: part number 0 (Python: get_part(0).delete()) never comes back; undefined behaviour with a full metadata table; endless loop for files with trailing or missing data. Proved otherwise."
  },
  {
   "property": "C28",
   "status": "partial",
   "theorems": [
    "C28_full_metadata_refuted",
    "C28_delete_all_partial"
   ],
   "note": "Full metadata tables are undefined behaviour; surviving metadata values may be cut as in C06."
  },
  {
   "property": "C29",
   "status": "partial",
   "theorems": [
    "C29_sizes_refuted",
    "C29_sizes_partial"
   ],
   "note": "False of the code: bpak_pkg_size leaves out padding. Exact values proved."
  },
  {
   "property": "C30",
   "status": "partial",
   "theorems": [
    "C30_open_existing",
    "C30_open_short",
    "C30_reopen_refuted",
    "C30_reopen_partial"
   ],
   "note": "False of the code for non-empty files shorter than a header opened for update."
  },
  {
   "property": "C45",
   "status": "partial",
   "theorems": [
    "C45_add_key_refuted",
    "C45_add_key_partial"
   ],
   "note": "False of the code: over-read of a one-byte variable for most key lengths."
  },
  {
   "property": "C46",
   "status": "partial",
   "theorems": [
    "C46_packages_with_trees_verify_partial",
    "C46_add_tree_partial",
    "C46_tree_inv_verifies",
    "C46_add_tree_atomic_refuted"
   ],
   "note": "Proved for every file of a whole number of 4096-byte blocks up to 8 GiB; other sizes are refused after the part was added."
  },
  {
   "property": "C44",
   "status": "proved",
   "theorems": [
    "C44_error_strings"
   ],
   "note": ""
  },
  {
   "property": "C31",
   "status": "proved",
   "theorems": [
    "C31_patch_integers",
    "C31_decode_every_byte_string"
   ],
   "note": ""
  },
  {
   "property": "C32",
   "status": "partial",
   "theorems": [
    "C32_chunking_partial",
    "C32_states",
    "C32_error_is_final",
    "C32_output_on_error_refuted",
    "C32_lzma_empty_chunk_fails"
   ],
   "note": "Result always, state and output on success, from every reachable state and for every buffer size; false of the code for the output left behind by a failing patch."
  },
  {
   "property": "C35",
   "status": "partial",
   "theorems": [
    "C35_terminates",
    "C35_safe_partial",
    "C35_terminates_heatshrink",
    "C35_terminates_lzma",
    "C35_lzma_as_plain",
    "C35_safe_heatshrink_partial",
    "C35_negative_length_refuted",
    "C35_position_overflow_refuted",
    "C35_empty_buffer_refuted"
   ],
   "note": "False of the code: negative diff lengths and far moves are undefined behaviour, an empty buffer hangs. Proved for all other patches."
  },
  {
   "property": "C47",
   "status": "proved",
   "theorems": [
    "C47_patch_meaning",
    "C47_patch_meaning_heatshrink"
   ],
   "note": ""
  },
  {
   "property": "C48",
   "status": "partial",
   "theorems": [
    "C48_truncated_patch_detected_refuted",
    "C48_truncated_lzma_patch_detected"
   ],
   "note": "False of the code for plain and heatshrink patches; proved for LZMA patches."
  },
  {
   "property": "C33",
   "status": "proved",
   "theorems": [
    "C33_diff_then_patch_plain",
    "C33_patch_describes_target",
    "C33_diff_then_patch_heatshrink",
    "C33_heatshrink_never_fails",
    "C33_diff_then_patch_lzma",
    "C33_lzma_never_fails"
   ],
   "note": "For plain, heatshrink and LZMA patches, every origin, target (below 2^62 bytes) and suffix array, whenever differencing produces a patch (whether it does is C34). For LZMA the contract lz_good of liblzma is a hypothesis."
  },
  {
   "property": "C36",
   "status": "proved",
   "theorems": [
    "C36_lossless",
    "C36_encoder_completes",
    "C36_compress_everything"
   ],
   "note": ""
  },
  {
   "property": "C37",
   "status": "proved",
   "theorems": [
    "C37_decoder_total",
    "C37_input_accepted",
    "C37_output_bound"
   ],
   "note": ""
  },
  {
   "property": "C34",
   "status": "partial",
   "theorems": [
    "C34_reads_past_suffix_array_refuted",
    "C34_reads_inside_partial",
    "C34_one_more_entry_suffices"
   ],
   "note": "False of the code: the search reads one entry past the suffix array."
  },
  {
   "property": "C38",
   "status": "partial",
   "theorems": [
    "C38_encode_then_decode_partial",
    "C38_decoded_file_partial",
    "C38_encoded_package",
    "C38_encoding_succeeds",
    "C38_lzma_refused",
    "C38_extra_part_refuted",
    "C38_empty_package_refuted",
    "C38_encoding_twice_refuted",
    "C38_no_uuid_refuted"
   ],
   "note": "Round trip of whole packages proved for copied, patched, compressed-patched and regenerated hash-tree parts; false of the code for parts missing in the origin, empty packages, already encoded parts, and packages without uuid."
  },
  {
   "property": "C39",
   "status": "partial",
   "theorems": [
    "C39_set_origin_exact",
    "C39_foreign_origin_accepted_refuted",
    "C39_right_origin_refused_refuted",
    "C39_set_origin_partial",
    "C39_encoder_compares_uuids"
   ],
   "note": "False of the code: the patch's uuid is read from the origin's metadata block. Exact behaviour proved."
  },
  {
   "property": "C40",
   "status": "proved",
   "theorems": [
    "C40_format_then_parse",
    "C40_parse_exact",
    "C40_pack_unpack",
    "C40_compare",
    "C40_is_null",
    "C40_to_string"
   ],
   "note": ""
  },
  {
   "property": "C41",
   "status": "partial",
   "theorems": [
    "C41_bin2hex_partial",
    "C41_bin2hex_in_bounds_refuted",
    "C41_bin2hex_never_reports"
   ],
   "note": "False of the code: every buffer below 2n+1 bytes is overrun, the error return is never reached in time. Proved for all larger buffers."
  },
  {
   "property": "C42",
   "status": "proved",
   "theorems": [
    "C42_keystore_get"
   ],
   "note": ""
  },
  {
   "property": "C43",
   "status": "partial",
   "theorems": [
    "C43_load_exact",
    "C43_load_stored_key",
    "C43_load_errors",
    "C43_load_safe_partial",
    "C43_key_buffer_refuted"
   ],
   "note": "Everything but the last clause proved; false of the code: a key part above 512 bytes overruns the buffer."
  },
  {
   "property": "C49",
   "status": "partial",
   "theorems": [
    "C49_meta_to_string_partial",
    "C49_version_exact",
    "C49_hash_overflow_exact",
    "C49_meta_to_string_refuted"
   ],
   "note": "False of the code for hashes in buffers below 65 bytes, version texts (never terminated) and uuids in small buffers. Exact behaviour proved; buffers of 37 bytes are enough for all other entries."
  },
  {
   "property": "C50",
   "status": "partial",
   "theorems": [
    "C50_operations_of_the_calls",
    "C50_killed_calls_partial",
    "C50_killed_delete_partial",
    "C50_torn_header_refuted",
    "C50_killed_delete_refuted"
   ],
   "note": "Proved for every history of completed calls and killed add, delete-all and extract calls with an atomic header write; false of the code for killed delete-part calls (what stays intact is proved) and torn header writes. Power failures that reorder writes are not modelled."
  },
  {
   "property": "C51",
   "status": "partial",
   "theorems": [
    "C51_delete_after_crash_partial",
    "C51_delete_after_crash_hangs",
    "C51_delete_after_crash_refuted"
   ],
   "note": "False of the code: endless loop unless the following parts' sizes add up to a multiple of 4096. Exact behaviour proved."
  },
  {
   "property": "C52",
   "status": "partial",
   "theorems": [
    "C52_number_arguments",
    "C52_name_arguments",
    "C52_parts_by_number",
    "C52_metadata_by_number",
    "C52_parts_by_name_partial",
    "C52_parts_by_name_refuted"
   ],
   "note": "False of the code for names that start with 0x: they can be added but not addressed."
  },
  {
   "property": "C53",
   "status": "proved",
   "theorems": [
    "C53_command_histories",
    "C53_create",
    "C53_stored_opens"
   ],
   "note": "The limits are the predicate fits in CliSpec.v; what happens beyond them is the subject of C55."
  },
  {
   "property": "C54",
   "status": "partial",
   "theorems": [
    "C54_set_keeps_others_partial",
    "C54_set_reads_back",
    "C54_set_keeps_others_refuted"
   ],
   "note": "False of the code: a longer text deletes and re-adds the entry, which cuts longer values behind it (C06)."
  },
  {
   "property": "C55",
   "status": "partial",
   "theorems": [
    "C55_tool_safe_partial",
    "C55_set_refuted",
    "C55_sign_refuted",
    "C55_encoder_refuted",
    "C55_metadata_file_cut"
   ],
   "note": "False of the code: texts of 65535 bytes, signatures above 512 bytes, encoder input without terminator; longer metadata files are cut silently. Safe within the limits."
  },
  {
   "property": "C56",
   "status": "proved",
   "theorems": [
    "C56_build_sign_verify",
    "C56_keystore"
   ],
   "note": "The signature scheme is a parameter; its correctness is the hypothesis correct_scheme."
  },
  {
   "property": "C57",
   "status": "partial",
   "theorems": [
    "C57_decimal",
    "C57_negative",
    "C57_hexadecimal",
    "C57_integer_stored_partial",
    "C57_large_refuted",
    "C57_garbage_refuted"
   ],
   "note": "False of the code: values from 2^63 on are refused, trailing garbage is accepted."
  },
  {
   "property": "C58",
   "status": "partial",
   "theorems": [
    "C58_add_then_delete",
    "C58_histories_forget",
    "C58_delete_forgets_partial",
    "C58_metadata_refuted"
   ],
   "note": "False of the code for metadata; for parts: any two histories with the same outcome leave the same bytes."
  },
  {
   "property": "C59",
   "status": "proved",
   "theorems": [
    "C59_create",
    "C59_commands",
    "C59_sign",
    "C59_one_contents",
    "C59_removed_metadata_refuted"
   ],
   "note": "The limits are fits (CliSpec.v) and tidy (ImageSpec.v: no removal of metadata); removing metadata breaks it, as the last theorem shows."
  },
  {
   "property": "C60",
   "status": "partial",
   "theorems": [
    "C60_compare_partial",
    "C60_same_package_partial",
    "C60_fatal_entries",
    "C60_compare_refuted"
   ],
   "note": "False of the code six ways (see the comment at C60_compare_refuted), among them a NULL dereference for every entry the second package lacks. Proved: the exact table and exit status whenever the command survives."
  },
  {
   "property": "C61",
   "status": "partial",
   "theorems": [
    "C61_show_partial",
    "C61_warning",
    "C61_hash",
    "C61_part",
    "C61_meta_partial",
    "C61_sha512_refuted",
    "C61_hash_of_damaged",
    "C61_show_refuted"
   ],
   "note": "False of the code: SHA-512 packages overrun hash_str[128]; versions above 128 bytes show the text of the previous entry; --hash ignores errors. Everything else proved."
  },
  {
   "property": "C62",
   "status": "partial",
   "theorems": [
    "C62_generate_partial",
    "C62_generate_fails_partial",
    "C62_generate_refuted"
   ],
   "note": "False of the code: .size is the part's size, .verified = true without verification, wrong position behind transport-encoded parts. The parser is a parameter."
  },
  {
   "property": "C63",
   "status": "partial",
   "theorems": [
    "C63_key_files",
    "C63_ec_keys_partial",
    "C63_generate_ec_partial",
    "C63_private_key_files",
    "C63_rsa_keys_refuted",
    "C63_add_key_refuted"
   ],
   "note": "False of the code: no RSA key can be loaded from a package (its encoding has 548 to 556 bytes, the buffers 512), and no supported key can be added without reading behind a variable. EC keys: proved. The DER encoding is specified in MbedSpec.v; that mbedTLS reads and writes it is the hypothesis reads."
  },
  {
   "property": "C64",
   "status": "partial",
   "theorems": [
    "C64_decode_returns",
    "C64_unknown_algorithm_refused",
    "C64_patch_needs_origin",
    "C64_part_not_in_origin_refused",
    "C64_safe_refuted"
   ],
   "note": "Termination and refusals proved; the last clause is false of the code: patches with negative lengths are undefined behaviour (C35)."
  },
  {
   "property": "C65",
   "status": "partial",
   "theorems": [
    "C65_decoded_header",
    "C65_plain_package",
    "C65_output_is_a_package_partial",
    "C65_output_file"
   ],
   "note": "Proved for packages and outputs below 2^62 bytes with at least one part (without parts nothing is written, C38_empty_package_refuted)."
  },
  {
   "property": "C66",
   "status": "proved",
   "theorems": [
    "C66_sessions",
    "C66_from_nothing"
   ],
   "note": "Limits: sessions_allowed (PySpec.v). verify and sign are C73 and C74; add_key and with_merkle_tree are not modelled at this level; calls outside the limits are C67 to C71."
  },
  {
   "property": "C67",
   "status": "partial",
   "theorems": [
    "C67_open_decided",
    "C67_missing_file",
    "C67_new_file",
    "C67_bad_file_refuted",
    "C67_short_file_refuted"
   ],
   "note": "False of the code: a file that cannot be opened closes its stream twice instead of raising an exception."
  },
  {
   "property": "C68",
   "status": "partial",
   "theorems": [
    "C68_file_untouched",
    "C68_reads",
    "C68_assignment_refuted",
    "C68_add_meta_refuted"
   ],
   "note": "The file is never changed; but refused assignments change the value in memory, and add_meta with a str releases its buffer twice."
  },
  {
   "property": "C69",
   "status": "partial",
   "theorems": [
    "C69_file_untouched",
    "C69_reads_nothing",
    "C69_writes_refuted"
   ],
   "note": "The file is never changed; but assignments, add_file and add_meta use the NULL stream."
  },
  {
   "property": "C70",
   "status": "partial",
   "theorems": [
    "C70_int_attributes",
    "C70_overflow_refuted",
    "C70_del_refuted"
   ],
   "note": "False of the code: values are cut to 8 or 32 bits without an exception (hash_kind = 256 makes the package unusable); del dereferences NULL."
  },
  {
   "property": "C71",
   "status": "partial",
   "theorems": [
    "C71_oversized_refused_partial",
    "C71_package_lost_refuted"
   ],
   "note": "False of the code: sizes whose low 16 bits fit overrun the block; otherwise the refused entry stays in memory and the next assignment makes the package unusable."
  },
  {
   "property": "C72",
   "status": "partial",
   "theorems": [
    "C72_hash_current",
    "C72_new_file",
    "C72_parts_refresh",
    "C72_hash_kind_stale",
    "C72_hash_kind_refuted"
   ],
   "note": "False of the code after an assignment to hash_kind; proved for all programs without one."
  },
  {
   "property": "C73",
   "status": "partial",
   "theorems": [
    "C73_sessions",
    "C73_sign_then_verify",
    "C73_readonly_refuted",
    "C73_failed_sign_refuted"
   ],
   "note": "The last clause is false of the code: a failed sign wipes the signature in memory (and, with the next assignment, on disk); a refused sign on a read-only package makes verify return True for an unsigned file. The rest proved; the signature scheme is a parameter (correct_scheme, total_scheme)."
  },
  {
   "property": "C74",
   "status": "proved",
   "theorems": [
    "C74_same_signature",
    "C74_same_trees"
   ],
   "note": "The signature scheme is a parameter (binding_scheme)."
  },
  {
   "property": "C75",
   "status": "partial",
   "theorems": [
    "C75_encode_then_decode_partial",
    "C75_no_origin_refuted",
    "C75_library_needs_no_origin"
   ],
   "note": "Round trip proved under the conditions of C38; the last clause is false of the code: without --origin an uninitialised package is used."
  },
  {
   "property": "C76",
   "status": "partial",
   "theorems": [
    "C76_only_the_output_changes",
    "C76_refused",
    "C76_failed_output_refuted",
    "C76_output_is_input_refuted",
    "C76_short_input_refuted",
    "C76_no_parts_refuted"
   ],
   "note": "False of the code: the output is emptied before anything is checked, also if it is one of the inputs; short inputs get a header appended; packages without parts are decoded to an empty package."
  },
  {
   "property": "C77",
   "status": "partial",
   "theorems": [
    "C77_encode_then_decode_partial",
    "C77_output_object_refuted",
    "C77_input_object_refuted"
   ],
   "note": "Round trip proved under the conditions of C38; the second clause is false of the code: after decoding, the output object's header is stale and the input object's is the decoded one, and the next assignment writes them."
  },
  {
   "property": "C78",
   "status": "partial",
   "theorems": [
    "C78_verify_comes_back",
    "C78_verify_payload_comes_back",
    "C78_verify_answers_partial",
    "C78_verify_payload_answers_partial",
    "C78_unsigned_refused_partial",
    "C78_signature_size_refuted",
    "C78_root_entry_refuted",
    "C78_part_digest_answers",
    "C78_extract_answers"
   ],
   "note": "Termination, part digests and extraction proved without limits. Memory safety of verification is false of the code: signature sizes above 512 (before authentication) and hash-tree roots/salts near the end of the metadata block are read out of bounds; proved for all other headers."
  },
  {
   "property": "C79",
   "status": "partial",
   "theorems": [
    "C79_extract_encoded_partial",
    "C79_encoded_cut_refuted",
    "C79_encoded_lost_refuted"
   ],
   "note": "False of the code for every encoded part that had padding; proved for parts without."
  },
  {
   "property": "C80",
   "status": "partial",
   "theorems": [
    "C80_made_next",
    "C80_update_partial",
    "C80_update_succeeds_partial",
    "C80_long_suffix_array"
   ],
   "note": "Proved from the commands that make both releases to the extracted files, including that encoding succeeds if the patches can be made. The code fails when the origin lacks a part or the package uuid sits elsewhere in the metadata (C38, C39); those conditions remain in [update]."
  },
  {
   "property": "C81",
   "status": "proved",
   "theorems": [
    "C81_patch_size",
    "C81_compressed_patch_size",
    "C81_compression_size"
   ],
   "note": ""
  },
  {
   "property": "C82",
   "status": "partial",
   "theorems": [
    "C82_options_read",
    "C82_one_reading",
    "C82_same_options",
    "C82_any_order",
    "C82_misspelled",
    "C82_unusable",
    "C82_help",
    "C82_no_package",
    "C82_incomplete",
    "C82_unknown_action",
    "C82_before_command",
    "C82_only_named_files",
    "C82_readers_change_nothing",
    "C82_missing_package",
    "C82_keeps_package",
    "C82_meaning_show",
    "C82_meaning_compare",
    "C82_meaning_id",
    "C82_meaning_keystore",
    "C82_generator_refuted",
    "C82_meaning",
    "C82_new_package",
    "C82_meaning_keys",
    "C82_meaning_transport",
    "C82_into_file",
    "C82_idle",
    "C82_manual_transport",
    "C82_usage_refuted",
    "C82_dashes_refuted",
    "C82_part_from_string_refuted"
   ],
   "note": "The last sentence is false of the code: the usage text's transport -D, -p and --encode <name> are refused; add --part --from-string is accepted and then always fails; some combinations of options are silently ignored (C82_idle); behind \"--\" the action takes its own name for the package; generate with an unknown generator does nothing and reports success. The rest proved for all command lines; getopt_long from the GNU manual."
  },
  {
   "property": "C83",
   "status": "proved",
   "theorems": [
    "C83_errors_have_texts",
    "C83_exit_status",
    "C83_success",
    "C83_status_tells_error",
    "C83_verify"
   ],
   "note": "Every error code any modelled function returns is between -30 and -1 (about 230 lemmas, LowBase..LowArg), so main's return value survives the reduction mod 256. Success is the model's Ok: what it means per command is C82. bpak generate with an unknown generator succeeds (C82_generator_refuted). Files shorter than 2^63 bytes; the runs that end (no hang, no undefined behaviour: other properties)."
  },
  {
   "property": "C84",
   "status": "partial",
   "theorems": [
    "C84_library_partial",
    "C84_transport_partial",
    "C84_session_partial",
    "C84_tool_partial",
    "C84_left_behind_partial",
    "C84_key_context_refuted",
    "C84_add_key_refuted",
    "C84_no_memory_refuted",
    "C84_sign_refuted",
    "C84_lzma_refuted",
    "C84_transport_refuted",
    "C84_close_refuted"
   ],
   "note": "Proved for all error paths of the calls and commands named; false of the code for the others (the _refuted theorems), for which C84_left_behind_partial bounds what is left. The model (AllocModel) abstracts every data-dependent result to an arbitrary one, so the theorems hold for all inputs; loops that acquire nothing are one unknown result, library-internal allocations are not followed."
  },
  {
   "property": "C85",
   "status": "partial",
   "theorems": [
    "C85_no_use_after_release_partial",
    "C85_stays_open_partial",
    "C85_released_partial",
    "C85_lists_partial",
    "C85_path_refuted",
    "C85_lists_refuted",
    "C85_log_function_refuted",
    "C85_add_meta_refuted",
    "C85_damaged_refuted"
   ],
   "note": "False of the code in five places (the _refuted theorems); proved for all programs that stay clear of them (harmless, no_lists, no_close). Results of calls are arbitrary (an oracle); integers, None, exceptions and calls of the module by the log function are not followed."
  }
 ]
}