{"id": "C01", "title": "Header (de)serialisation is a bijection with 4096-byte images", "statement": "Writing any struct bpak_header produces exactly 4096 bytes with every field at its documented offset; reading those bytes back yields the same header, and re-writing a header read from any 4096-byte string reproduces that string.", "quantifier": "every header value, every 4096-byte string", "why_tests_cant": "A test compares a handful of headers; a field overlap or truncation only shows for particular values of particular fields.", "anchors": ["include/bpak/bpak.h: struct bpak_header, struct bpak_meta_header, struct bpak_part_header", "lib/pkg.c: bpak_pkg_open, bpak_pkg_write_header"]}
{"id": "C02", "title": "The part table is an ordered map under any history", "statement": "Starting from bpak_init_header, after any sequence of bpak_add_part / bpak_del_part / field updates the part table behaves like an ordered list of at most 32 parts with distinct ids: bpak_get_part finds exactly the parts added and not deleted since; adding an existing id fails with EXISTS, adding to a full table fails with NO_SPACE_LEFT, and failures change nothing.", "quantifier": "every sequence of part operations with non-zero ids", "why_tests_cant": "The claim is about all histories, including fill-up, delete in the middle and re-add.", "anchors": ["lib/bpak.c: bpak_get_part, bpak_add_part, bpak_del_part, bpak_init_header"]}
{"id": "C03", "title": "Deleting a part keeps every other part and their order", "statement": "bpak_del_part of a part in a hole-free table removes exactly that entry; all other entries keep every field and their relative order, and nothing outside the part table changes.", "quantifier": "every header with a hole-free part table, every index, including a full 32-entry table", "why_tests_cant": "Boundary behaviour at index 31 and with a full table needs all positions and all fill levels.", "anchors": ["lib/bpak.c: bpak_del_part"]}
{"id": "C04", "title": "Metadata areas are aligned, in bounds and never overlap", "statement": "Starting from bpak_init_header, after any sequence of successful bpak_add_meta calls and writes through the returned descriptors, each entry's data area is 8-byte aligned, lies inside the 1920-byte metadata block, and overlaps no other entry's area; bpak_get_meta(id, ref) returns the entry added for (id, ref) holding the bytes last written for it.", "quantifier": "every sequence of add/write operations, all sizes 0..65535", "why_tests_cant": "Offsets accumulate with 16-bit arithmetic over up to 32 entries; overlap only appears for particular size combinations.", "anchors": ["lib/bpak.c: bpak_add_meta, bpak_get_meta", "include/bpak/bpak.h: bpak_get_meta_ptr"]}
{"id": "C05", "title": "A failing bpak_add_meta leaves the header unchanged", "statement": "When bpak_add_meta returns an error the header is byte-for-byte what it was before.", "quantifier": "every header and every (id, part ref, size)", "why_tests_cant": "Failure atomicity must hold at every fill level; a test has to hit the one size that overflows.", "anchors": ["lib/bpak.c: bpak_add_meta"]}
{"id": "C06", "title": "Deleting metadata keeps all other metadata", "statement": "After bpak_del_meta(m) every other metadata entry is still found and has the same size and the same data bytes.", "quantifier": "every hole-free metadata table, every index and all sizes", "why_tests_cant": "Data is moved with overlapping memmove/memset; corruption depends on the relation of two sizes.", "anchors": ["lib/bpak.c: bpak_del_meta"]}
{"id": "C07", "title": "Deleting metadata stays inside the metadata table", "statement": "bpak_del_meta on any entry of a valid header only touches the metadata table and the metadata block, and the entry is gone afterwards.", "quantifier": "every valid header and every entry index 0..31", "why_tests_cant": "Only the last slot or a full table misbehaves.", "anchors": ["lib/bpak.c: bpak_del_meta"]}
{"id": "C08", "title": "A header accepted by bpak_valid_header is safe to use", "statement": "If bpak_valid_header accepts, every metadata entry that bpak_get_meta / bpak_get_meta_anyref can return has its data inside the metadata block and every part bpak_get_part returns is 512-byte aligned.", "quantifier": "every 4096-byte header, including hostile ones", "why_tests_cant": "Untrusted input: the attacker picks the header; fuzzing samples.", "anchors": ["lib/bpak.c: bpak_valid_header, bpak_get_meta, bpak_get_part"]}
{"id": "C09", "title": "bpak_valid_header decides exactly the documented conditions", "statement": "bpak_valid_header returns OK iff magic matches, every part before the first empty slot has (size+pad) mod 2^64 a multiple of 512, every metadata entry before the first empty slot ends within 1920 bytes and the hash kind is non-zero; otherwise it returns the error of the first failing check, in that order; headers built by the API from bpak_init_header with padded parts are accepted.", "quantifier": "every header", "why_tests_cant": "Acceptance is a decision over 2^32768 headers.", "anchors": ["lib/bpak.c: bpak_valid_header"]}
{"id": "C10", "title": "Part data areas are contiguous and disjoint", "statement": "For a header with a hole-free part table the offset of part i is 4096 plus the stored sizes of parts 0..i-1 (transport size for transport-coded parts, size+padding otherwise), so areas are adjacent in table order and never overlap.", "quantifier": "every header with hole-free distinct part ids whose total does not overflow", "why_tests_cant": "Sum over up to 32 parts with two kinds of stored size.", "anchors": ["lib/bpak.c: bpak_part_offset, bpak_part_size"]}
{"id": "C11", "title": "bpak_id is the reflected CRC-32 for every string", "statement": "bpak_id(name) equals the bit-serial CRC-32 (reflected polynomial 0xEDB88320, initial value 0, no final inversion) of the name's bytes, and always fits 32 bits.", "quantifier": "every byte string of any length", "why_tests_cant": "A table-driven CRC can be wrong in a single table entry and pass most samples.", "anchors": ["lib/bpakcrc.c: crc32_tab, bpak_crc32", "lib/id.c: bpak_id"]}
{"id": "C12", "title": "Hash-tree ids computed from ids and from names agree", "statement": "bpak_part_id_to_hash_tree_id(bpak_id(name)) == bpak_id(name + \"-hash-tree\"); more generally, extending an id with a suffix equals the id of the concatenation, for every name, and bpak_hash_tree_id_to_part_id inverts the mapping.", "quantifier": "every name and suffix; every 32-bit id", "why_tests_cant": "Composition of CRC must hold for all strings.", "anchors": ["lib/utils.c: bpak_part_name_to_hash_tree_id, bpak_part_id_to_hash_tree_id, bpak_hash_tree_id_to_part_id"]}
{"id": "C13", "title": "Similar names never share an id", "statement": "Two different names of equal length that differ only inside a window of at most four adjacent characters have different ids; distinct part ids always have distinct hash-tree ids.", "quantifier": "every pair of such names, every pair of ids", "why_tests_cant": "Collision-freeness over an infinite family of pairs.", "anchors": ["lib/bpakcrc.c: bpak_crc32", "lib/id.c: bpak_id"]}
{"id": "C14", "title": "Merkle tree size is the exact sum of levels", "statement": "bpak_merkle_compute_size(n) equals 4096 times the total number of hash blocks obtained by repeatedly grouping 128 children until a single block remains, for every n it accepts, and it rejects exactly n = 0 and sizes needing more than four levels (never wrapping).", "quantifier": "every data size below 2^64", "why_tests_cant": "Off-by-one at multiples of 4096*128^k cannot be enumerated.", "anchors": ["lib/merkle.c: bpak_merkle_compute_size"]}
{"id": "C15", "title": "Merkle generation does not depend on how data is chunked", "statement": "Feeding the same bytes to bpak_merkle_write_chunk in any partition into chunks leaves the context and the backing store in the same state.", "quantifier": "every byte string of at most the declared size and every partition into chunks (empty ones included)", "why_tests_cant": "The number of partitions is exponential.", "anchors": ["lib/merkle.c: bpak_merkle_write_chunk"]}
{"id": "C16", "title": "The generated hash tree and root are the specified Merkle tree", "statement": "After init, writes totalling the declared size and finish, the backing store contains, level by level and from the top, the salted SHA-256 hashes of the 4 KiB blocks of the level below, zero padded to whole blocks, and the returned root is the hash of the top block (of the single data block when the data is one block).", "quantifier": "every non-empty data string up to the level limit, every salt, every chunking", "why_tests_cant": "Multi-level behaviour needs data sizes above 512 KiB and 64 MiB at exact boundaries.", "anchors": ["lib/merkle.c: bpak_merkle_init, bpak_merkle_write_chunk, bpak_merkle_finish"]}
{"id": "C17", "title": "Sizing and generating a Merkle tree accept the same inputs", "statement": "Whenever bpak_merkle_compute_size succeeds for a size, bpak_merkle_init succeeds for it as well and the tree fits the computed size.", "quantifier": "every data size", "why_tests_cant": "The limits are at hundreds of MiB to GiB of input.", "anchors": ["lib/merkle.c: bpak_merkle_compute_size, bpak_merkle_init"]}
{"id": "C18", "title": "Merkle verification accepts exactly untampered data", "statement": "Checking a part against its stored hash tree succeeds iff the stored root equals the recomputed root and every stored tree byte equals the recomputed one; accepting modified data implies a SHA-256 collision.", "quantifier": "every data, tree, root and salt", "why_tests_cant": "Soundness ranges over all modifications.", "anchors": ["lib/verify.c: bpak_verify_merkle_tree, merkle_verify_wr, merkle_verify_rd"]}
{"id": "C19", "title": "The payload hash covers every included byte once, in order", "statement": "bpak_verify_compute_payload_hash returns the hash of the concatenation, in table order, of the stored bytes (with padding) of every part that is not flagged exclude-from-hash, independent of chunk size and of the excluded parts' contents.", "quantifier": "every header, file content, part sizes and flags", "why_tests_cant": "Chunk loops behave differently for every size modulo 4096.", "anchors": ["lib/verify.c: bpak_verify_compute_payload_hash"]}
{"id": "C20", "title": "The header hash covers everything but the signature", "statement": "The header hash is the hash of the 4096-byte header with the signature and signature size fields zeroed (payload hash as stored); headers that differ only in the signature have the same hash input, and headers that differ anywhere else have different hash inputs.", "quantifier": "every pair of headers", "why_tests_cant": "Each of 28k bits must be covered.", "anchors": ["lib/verify.c: bpak_verify_compute_header_hash"]}
{"id": "C21", "title": "Hash computation reports failures", "statement": "When the hash cannot be produced (unsupported kind or output buffer smaller than the digest), bpak_verify_compute_header_hash returns an error and reports no digest.", "quantifier": "every hash kind and buffer size", "why_tests_cant": "Needs a buffer/size/kind combination the suite never uses.", "anchors": ["lib/verify.c: bpak_verify_compute_header_hash", "lib/mbedtls_wrapper.c: bpak_hash_final"]}
{"id": "C22", "title": "Verification accepts only untampered packages", "statement": "If bpak_pkg_verify accepts two packages carrying the same signature under the same key and the signature scheme binds a signature to one digest, then either the header (outside the signature) and all hashed part bytes are equal, or a hash collision is exhibited.", "quantifier": "every pair of packages (original, tampered)", "why_tests_cant": "Security claim over all tampering.", "anchors": ["lib/pkg_verify.c: bpak_pkg_verify", "lib/verify.c"]}
{"id": "C23", "title": "Sign then verify succeeds", "statement": "Updating hashes, signing with a private key and verifying with the matching public key succeeds for every package, provided the signature scheme is correct, and signing changes nothing but the signature fields (and the hash fields written by update).", "quantifier": "every well-formed package and key pair", "why_tests_cant": "All header contents and part layouts.", "anchors": ["lib/pkg_sign.c: bpak_pkg_sign", "lib/pkg_verify.c: bpak_pkg_verify", "lib/pkg.c: bpak_pkg_update_hash"]}
{"id": "C24", "title": "Signature extraction and storage are memory safe", "statement": "bpak_copyz_signature copies the signature out only if the buffer is large enough and zeroes it; bpak_pkg_write_raw_signature stores any signature of at most 512 bytes unchanged and rejects longer ones.", "quantifier": "every signature and buffer size", "why_tests_cant": "The failing sizes (513..) are not in any test.", "anchors": ["lib/bpak.c: bpak_copyz_signature", "lib/pkg.c: bpak_pkg_write_raw_signature"]}
{"id": "C25", "title": "Adding a file then extracting it returns the same bytes", "statement": "bpak_pkg_add_file followed by bpak_pkg_extract_file of the same part yields exactly the file's bytes, for every length including 0 and multiples of 512 and 4096.", "quantifier": "every file content and every well-formed package", "why_tests_cant": "Padding/chunk arithmetic for every size.", "anchors": ["lib/pkg_create.c: bpak_pkg_add_file", "lib/pkg.c: bpak_pkg_extract_file"]}
{"id": "C26", "title": "Adding a file preserves everything already in the package", "statement": "After adding a part, every earlier part's stored bytes, offset and header entry and all metadata are unchanged, the header stays valid, and the file length is the header plus all part sizes; a failing add leaves the part data unchanged.", "quantifier": "every package reachable by create/add operations", "why_tests_cant": "History property.", "anchors": ["lib/pkg_create.c: bpak_pkg_add_file", "lib/pkg.c: bpak_pkg_write_header"]}
{"id": "C27", "title": "Deleting a part preserves all other parts", "statement": "bpak_pkg_delete_part removes the part, its data (and, if asked, its metadata); every other part keeps its id, sizes, flags and bytes; the file shrinks by exactly the part's stored size.", "quantifier": "every well-formed package, every part, every size of data after it", "why_tests_cant": "Data is moved in 4 KiB chunks; errors depend on the size of the tail.", "anchors": ["lib/pkg.c: bpak_pkg_delete_part"]}
{"id": "C28", "title": "Deleting all parts leaves only a header", "statement": "bpak_pkg_delete_all_parts leaves a 4096-byte file whose header has no parts (and, if asked, no part-bound metadata) and is otherwise unchanged.", "quantifier": "every well-formed package", "why_tests_cant": "All table fill levels.", "anchors": ["lib/pkg.c: bpak_pkg_delete_all_parts"]}
{"id": "C29", "title": "Reported sizes are the real sizes", "statement": "bpak_pkg_size is the number of bytes of the package file and bpak_pkg_installed_size the sum of the parts' unencoded sizes.", "quantifier": "every well-formed package", "why_tests_cant": "Padding is only non-zero for some sizes.", "anchors": ["lib/pkg.c: bpak_pkg_installed_size, bpak_pkg_size"]}
{"id": "C30", "title": "Opening a package", "statement": "Opening a file for reading succeeds iff its first 4096 bytes are a valid header; opening for update a file that has no valid header either fails or leaves a package that can be opened again.", "quantifier": "every file content of every length", "why_tests_cant": "Short files of each length.", "anchors": ["lib/pkg.c: bpak_pkg_open"]}
{"id": "C31", "title": "Patch integers round-trip", "statement": "The 8-byte sign-magnitude encoding used in patches decodes to the encoded value for every 64-bit value except the minimum, and equals the documented format.", "quantifier": "every 64-bit integer", "why_tests_cant": "2^64 values.", "anchors": ["lib/bsdiff.c: offtout", "lib/bspatch.c: offtin"]}
{"id": "C32", "title": "Applying a patch does not depend on chunking", "statement": "Feeding a patch to bpak_bspatch_write in any partition into non-empty chunks produces the same output, state and result as feeding it at once.", "quantifier": "every patch, origin, and partition", "why_tests_cant": "Exponentially many partitions.", "anchors": ["lib/bspatch.c: bspatch_write, bpak_bspatch_write"]}
{"id": "C33", "title": "Diff then patch reproduces the target", "statement": "For every origin and target, the patch generated by bpak_bsdiff applied to the origin with bpak_bspatch yields exactly the target, whatever the suffix array contains.", "quantifier": "every origin, target, suffix array contents, compressor setting none/heatshrink/LZMA", "why_tests_cant": "Differencing heuristics are data dependent; tests cover a few pairs.", "anchors": ["lib/bsdiff.c: bpak_bsdiff_init, bpak_bsdiff, write_diff_extra_and_adjustment", "lib/bspatch.c"]}
{"id": "C34", "title": "Differencing never reads outside its inputs", "statement": "bpak_bsdiff reads only inside the origin, target and suffix array for every input.", "quantifier": "every origin and target, correct suffix array", "why_tests_cant": "Out-of-bounds reads are silent in tests.", "anchors": ["lib/bsdiff.c: search, matchlen, bpak_bsdiff"]}
{"id": "C35", "title": "Applying any patch is memory safe and terminates", "statement": "bpak_bspatch_write with arbitrary (hostile) patch bytes never accesses memory outside its buffers and always terminates.", "quantifier": "every byte string as patch, every origin", "why_tests_cant": "Hostile input.", "anchors": ["lib/bspatch.c: bspatch_write"]}
{"id": "C36", "title": "Heatshrink compression is lossless", "statement": "Decoding the output of the heatshrink encoder yields the encoder input, for every input and any chunking of sink/poll calls on either side.", "quantifier": "every byte string, all buffer schedules", "why_tests_cant": "Bit-level state machines with arbitrary suspension points.", "anchors": ["lib/heatshrink/heatshrink_encoder.c", "lib/heatshrink/heatshrink_decoder.c"]}
{"id": "C37", "title": "The heatshrink decoder is total and memory safe", "statement": "On every byte stream the decoder stays inside its window and input buffer, emits at most a bounded number of bytes per input, and never gets stuck.", "quantifier": "every byte string", "why_tests_cant": "Hostile input, suspension points.", "anchors": ["lib/heatshrink/heatshrink_decoder.c"]}
{"id": "C38", "title": "Transport encode then decode restores the package", "statement": "Transport-encoding a package against an origin and decoding it against the same origin restores header and part data of the target package.", "quantifier": "every pair of packages sharing transport settings", "why_tests_cant": "Composition of diff, patch, Merkle and copy paths.", "anchors": ["lib/transport_encode.c", "lib/transport_decode.c", "lib/pkg.c: bpak_pkg_transport_decode"]}
{"id": "C39", "title": "Transport decoding refuses a foreign origin", "statement": "bpak_transport_decode_set_origin accepts an origin iff its package uuid equals the one recorded in the patch.", "quantifier": "every pair of origin and patch headers", "why_tests_cant": "Depends on both headers' metadata layouts.", "anchors": ["lib/transport_decode.c: bpak_transport_decode_set_origin"]}
{"id": "C40", "title": "UUID text and binary forms round-trip", "statement": "Formatting then parsing a UUID returns the same 16 bytes, for every UUID; parsing accepts exactly the 36-character hyphenated hex form; packing/unpacking are inverse.", "quantifier": "every 16-byte value; every string", "why_tests_cant": "2^128 values.", "anchors": ["ext/uuid: uuid_parse, uuid_unparse, uuid_pack, uuid_unpack", "lib/utils.c: bpak_uuid_to_string"]}
{"id": "C41", "title": "Hex dump is correct and in bounds", "statement": "bpak_bin2hex writes two lowercase hex digits per byte plus a terminator, only inside the supplied buffer, or reports an error.", "quantifier": "every data string and buffer size", "why_tests_cant": "Off-by-one only for one buffer size per data length.", "anchors": ["lib/utils.c: bpak_bin2hex"]}
{"id": "C42", "title": "Keystore lookup", "statement": "bpak_keystore_get on a verified keystore returns the first key with the requested id, or KEY_NOT_FOUND and no key if there is none; on a keystore that is not verified it fails and returns no key.", "quantifier": "every keystore and id", "why_tests_cant": "All table contents.", "anchors": ["lib/keystore.c: bpak_keystore_get"]}
{"id": "C43", "title": "Loading a key from a keystore package", "statement": "bpak_keystore_load_key_from_file only returns a key stored as a part with the requested id in a valid package whose header passes the caller's check and whose provider id is the requested keystore, returns exactly the key that was stored, tells a wrong keystore from a missing key, and never overruns its key buffer.", "quantifier": "every keystore package file", "why_tests_cant": "Hostile or oversized parts.", "anchors": ["lib/keystore_load_from_file.c"]}
{"id": "C44", "title": "Error codes have distinct descriptions", "statement": "bpak_error_string maps OK and each of the 30 error codes to a distinct non-empty string other than \"Unknown\" and every other int to \"Unknown\".", "quantifier": "every int", "why_tests_cant": "2^32 inputs.", "anchors": ["lib/bpak.c: bpak_error_string"]}
{"id": "C45", "title": "Key and part tables survive key import", "statement": "bpak_pkg_add_key stores the encoded key as a part padded to 512 bytes; the package stays well formed and extraction returns the key bytes.", "quantifier": "every encoded key and package", "why_tests_cant": "The padding amount depends on key length.", "anchors": ["lib/pkg_create.c: bpak_pkg_add_key"]}
{"id": "C46", "title": "Adding a file with a hash tree yields a verifiable package", "statement": "After bpak_pkg_add_file with the merkle flag, package verification of that part's hash tree succeeds and the part's bytes are recoverable.", "quantifier": "every file size and content, every salt, every package with room", "why_tests_cant": "Needs interplay of padding, tree layout and metadata for all sizes.", "anchors": ["lib/pkg_create.c: bpak_pkg_add_file, add_file_with_merkle_tree", "lib/verify.c: bpak_verify_payload"]}
{"id": "C47", "title": "A patch means its records", "statement": "Feeding bpak_bspatch_write the encoding of a list of records, in any partition, writes exactly the bytes the records describe (origin bytes plus diff bytes, then extra bytes, then a move in the origin) at the output offset, leaves the rest of the output alone, and bpak_bspatch_final reports their number.", "quantifier": "every list of records, origin file, position of the origin part in it, output file and partition", "why_tests_cant": "Needs all combinations of empty and non-empty fields with chunk boundaries.", "anchors": ["lib/bspatch.c: bpak_bspatch_write, bpak_bspatch_final"]}
{"id": "C48", "title": "An incomplete patch is detected", "statement": "bpak_bspatch_final reports an error when the patch ended in the middle of a record.", "quantifier": "every proper prefix of a patch", "why_tests_cant": "All cut points.", "anchors": ["lib/bspatch.c: bpak_bspatch_final"]}
{"id": "C49", "title": "Texts of metadata entries", "statement": "bpak_meta_to_string writes the documented text of a metadata entry (hex ids, uuid, transport algorithms, hashes, load address) as a terminated string inside the supplied buffer, or reports an error.", "quantifier": "every header, entry, value and buffer size", "why_tests_cant": "All values, and buffer sizes around each text's length.", "anchors": ["lib/utils.c: bpak_meta_to_string"]}
{"id": "C50", "title": "A killed call leaves a usable package", "statement": "If the process is killed during an API call on a package file, the file can still be opened afterwards, every file in it can be extracted unchanged, its payload hash is current, and the interrupted call took effect entirely or not at all; this holds for every sequence of completed and killed calls.", "quantifier": "every history of add, delete and extract calls, every subset of them killed, every kill point including the middle of a write", "why_tests_cant": "Kill points are between and inside all writes of all calls.", "anchors": ["lib/pkg_create.c: bpak_pkg_add_file", "lib/pkg.c: bpak_pkg_delete_part, bpak_pkg_delete_all_parts"]}
{"id": "C51", "title": "Deleting works on what a crash left behind", "statement": "bpak_pkg_delete_part returns and removes the part, also when an earlier call was killed and left bytes behind the last part.", "quantifier": "every package, every part of it, every remains of a killed call", "why_tests_cant": "Depends on the size of the following parts modulo the buffer size and on the file's length.", "anchors": ["lib/pkg.c: bpak_pkg_delete_part"]}
{"id": "C52", "title": "Names and numbers on the command line", "statement": "An argument 0x<hex digits> of --part, --meta, --part-ref, --key-id and --keystore-id denotes the id with that number, any other argument the id of that name; every part and metadata entry of a package can be extracted by its number, and every part by the name it was added with.", "quantifier": "every package, every name, every number", "why_tests_cant": "All names and all spellings of numbers.", "anchors": ["src/misc.c: bpak_get_id_for_name_or_ref", "src/add.c: action_add", "src/extract.c: action_extract"]}
{"id": "C53", "title": "Every session with the tool", "statement": "Running any sequence of bpak create, add (parts, hash trees, metadata), transport --add, set, delete, extract and sign -f commands on a file gives the outputs, exit results and package contents of a list of files, a list of metadata entries and a few settings kept by hand, as long as the commands stay within the tool's documented or structural limits.", "quantifier": "every sequence of commands, every argument, every file", "why_tests_cant": "All histories.", "anchors": ["src/create.c", "src/add.c", "src/set.c", "src/delete.c", "src/extract.c", "src/transport.c", "src/sign.c"]}
{"id": "C54", "title": "bpak set changes one value", "statement": "After bpak set --meta name --from-string s, the entry reads back as s and every other metadata entry as before.", "quantifier": "every package, name and text", "why_tests_cant": "Depends on the order, lengths and alignment of all entries.", "anchors": ["src/set.c: action_set", "lib/bpak.c: bpak_del_meta, bpak_add_meta"]}
{"id": "C55", "title": "The tool never leaves its buffers", "statement": "Every bpak command, with every argument and every input file, returns a result or an error without undefined behaviour, and does not silently drop input.", "quantifier": "every command, argument and file", "why_tests_cant": "All lengths of texts, signatures and metadata files.", "anchors": ["src/add.c: action_add", "src/set.c: action_set", "src/sign.c: action_sign", "src/misc.c"]}
{"id": "C56", "title": "Build, sign, verify", "statement": "A package created and filled by any sequence of adding commands (parts, hash trees, metadata, ids) and signed with a private key verifies with bpak verify and a keystore that holds the matching public key; signing changes nothing but the signature.", "quantifier": "every sequence of adding commands, every correct signature scheme and key", "why_tests_cant": "All histories and contents.", "anchors": ["src/create.c", "src/add.c", "src/sign.c", "src/main.c", "lib/pkg_sign.c", "lib/pkg_verify.c", "lib/keystore_load_from_file.c"]}
{"id": "C57", "title": "Integers given as text", "statement": "bpak add --encoder integer stores the number the text denotes (decimal, hexadecimal, negative) as 64 bits, little endian, and refuses texts that are no number.", "quantifier": "every text", "why_tests_cant": "All digits and lengths.", "anchors": ["src/add.c: action_add", "src/set.c: action_set"]}
{"id": "C58", "title": "What is deleted is gone", "statement": "Deleting a part leaves the byte-identical file that a package which never contained the part would be, so that nothing of the part can be recovered, and deleted metadata does not show up again.", "quantifier": "every package, every part, every history", "why_tests_cant": "All orders of adding and deleting.", "anchors": ["lib/pkg.c: bpak_pkg_delete_part, bpak_pkg_delete_all_parts", "lib/bpak.c: bpak_del_meta", "src/transport.c: action_transport"]}
{"id": "C59", "title": "Reproducible packages", "statement": "The bytes of a package file are a function of its contents (files, metadata, ids, algorithms, signature): whatever sequence of create, add, set, delete, sign and extract commands led to the contents, the file has one header of 4096 bytes in a fixed layout with zeros in all unused bytes, followed by the padded files; and the bytes determine the contents. Excepted are commands that remove metadata, which leave its values behind.", "quantifier": "all hash functions, contents and command sequences, from any package without removed metadata", "why_tests_cant": "equality of files for every pair of histories; tests compare a handful of packages", "anchors": ["src/create.c, src/add.c, src/set.c, src/delete.c, src/sign.c", "lib/pkg.c, lib/pkg_create.c", "lib/bpak.c: bpak_add_meta, bpak_add_part, bpak_del_part", "include/bpak/bpak.h: struct bpak_header"]}
{"id": "C60", "title": "compare tells packages apart", "statement": "bpak compare prints one line for every metadata entry and part of either package, marked as its legend says: = the same, * changed, - only in the first, + only in the second; it prints the table for every pair of valid packages, and its exit status tells whether there is a difference.", "quantifier": "every pair of packages, every buffer content", "why_tests_cant": "All combinations of entries, sizes and positions; the crashes need particular combinations.", "anchors": ["src/compare.c: action_compare", "lib/utils.c: bpak_meta_to_string"]}
{"id": "C61", "title": "show tells what is in a package", "statement": "bpak show prints the ids, every metadata entry with its text, every part, the header hash (as it is signed) and the payload hash, and warns exactly if the payload does not match the header; --hash, --binary-hash, --meta, --part and --part-hash print that piece, or fail if it is not there.", "quantifier": "every package, every hash algorithm", "why_tests_cant": "All contents, entries and digests; errors of the hash computation must surface.", "anchors": ["src/show.c: action_show", "lib/utils.c: bpak_meta_to_string, bpak_bin2hex", "lib/pkg.c: bpak_pkg_update_hash", "lib/pkg_verify.c: bpak_pkg_part_sha256"]}
{"id": "C62", "title": "Generated keystores hold the keys of the package", "statement": "The C source that bpak generate keystore prints declares, in order, one key per part with the part's id and the kind, size and data of the key stored in it, and the keystore id of the package; it fails if a part is no public key, and claims the keys are verified only if they are.", "quantifier": "every key package", "why_tests_cant": "All numbers and kinds of keys, all layouts.", "anchors": ["src/generate.c: action_generate", "lib/crypto.c: bpak_crypto_parse_public_key"]}
{"id": "C63", "title": "Public keys pass through packages", "statement": "Every public key of a supported kind (P-256, P-384, P-521, RSA 4096) that bpak reads from a file can be added to a package, loaded from the package by its id with the same kind and data, and generated as source with the right size; other kinds are refused.", "quantifier": "every public key and every package holding it", "why_tests_cant": "All keys, whose encodings differ in length; tests use a few EC keys.", "anchors": ["lib/mbedtls_wrapper.c: bpak_mbed_load_public_key, bpak_mbed_load_private_key, bpak_mbed_parse_public_key", "lib/keystore_load_from_file.c", "lib/pkg_create.c: bpak_pkg_add_key", "src/generate.c"]}
{"id": "C64", "title": "Decoding untrusted packages", "statement": "bpak_pkg_transport_decode stops for every input package, however damaged or hostile, every origin and every output file; it refuses parts with unknown algorithms, patches without an origin, and parts the origin does not have, and no input makes it misbehave.", "quantifier": "every package, origin, output file, build and hash function", "why_tests_cant": "All byte strings as patches and compressed patches; tests decode what the encoder produced.", "anchors": ["lib/pkg.c: bpak_pkg_transport_decode", "lib/transport_decode.c", "lib/bspatch.c", "lib/merkle.c"]}
{"id": "C65", "title": "What a successful decode means", "statement": "If bpak_pkg_transport_decode succeeds, the output file is a well-formed package with the input's header, transport state cleared, and the same parts, each exactly as long as announced; parts that were not encoded are unchanged, a package without encoded parts is copied, and nothing is written outside the package.", "quantifier": "every package (not only encoded ones), origin, output file", "why_tests_cant": "Patches nobody's encoder produced may still be accepted; where they write must be known for all of them.", "anchors": ["lib/pkg.c: bpak_pkg_transport_decode", "lib/transport_decode.c", "lib/bspatch.c", "lib/merkle.c"]}
{"id": "C66", "title": "A Python program sees one package", "statement": "Every sequence of 'with bpak.Package(file, ...)' blocks, each with any calls on the package and on the Meta and Part objects it handed out (stale ones included), returns what the ordered lists of files, metadata and settings call for, and the file left behind holds exactly that package; within the header's limits (32 entries, 1920 bytes of metadata, ids not 0).", "quantifier": "every program of calls, every number of sessions, every package", "why_tests_cant": "Interleavings of calls on several objects and reopenings are unbounded; the tests run a handful of scripts.", "anchors": ["python/package.c", "python/meta.c", "python/part.c"]}
{"id": "C67", "title": "Opening a package from Python", "statement": "Package(filename, mode) leaves an existing file of at least 4096 bytes unchanged and succeeds exactly if its header is valid; an empty file opened for writing becomes an empty package; in every other case an exception is raised.", "quantifier": "every file content, every mode", "why_tests_cant": "All file contents; tests open good packages.", "anchors": ["python/package.c: package_init, package_dealloc", "lib/pkg.c: bpak_pkg_open, bpak_pkg_close"]}
{"id": "C68", "title": "Read-only packages in Python", "statement": "No program changes the file of a package opened read-only; reading returns what the package holds, and a refused change raises an exception and has no effect.", "quantifier": "every program, every package", "why_tests_cant": "All programs; tests never modify a read-only package.", "anchors": ["python/package.c", "python/meta.c", "python/part.c"]}
{"id": "C69", "title": "Closed packages in Python", "statement": "After close() no call changes the file; calls on a closed package raise an exception or return empty results, and never misbehave.", "quantifier": "every program before and after close(), every package", "why_tests_cant": "All programs; tests never use a package after closing it.", "anchors": ["python/package.c: package_close", "python/meta.c", "python/part.c"]}
{"id": "C70", "title": "Integers assigned from Python", "statement": "An int assigned to hash_kind, signature_kind, key_id or keystore_id is stored exactly and nothing else changes, or an exception is raised and nothing changes; deleting an attribute raises an exception.", "quantifier": "every int, every attribute, every package", "why_tests_cant": "All 2^64 values; tests assign small ones.", "anchors": ["python/package.c: package_set_hash_kind, package_set_signature_kind, package_set_key_id, package_set_keystore_id", "python/meta.c", "python/part.c"]}
{"id": "C71", "title": "Metadata that does not fit, from Python", "statement": "add_meta with more data than the metadata block has room for raises an exception and leaves the package, in memory and on disk, as it was.", "quantifier": "every size, every package, every later call", "why_tests_cant": "All sizes (also above 65535) and what later calls write; tests add small entries.", "anchors": ["python/package.c: package_add_meta", "lib/bpak.c: bpak_add_meta"]}
{"id": "C72", "title": "The stored payload hash stays current in Python", "statement": "After any number of Python sessions the payload hash stored in the file is the hash, of the package's kind, of the stored bytes of the files it covers.", "quantifier": "every program, every number of sessions, every package whose hash was current", "why_tests_cant": "All interleavings of calls that rewrite the header; tests look at the digest getter only.", "anchors": ["python/package.c: package_write_header, package_set_hash_kind, package_add_file", "lib/pkg.c: bpak_pkg_update_hash"]}
{"id": "C73", "title": "Signing and verifying from Python", "statement": "In any number of Python sessions, with any calls in between: after a successful sign(key) and as long as nothing but reading calls follow, also in later sessions and read-only ones, verify with the matching key returns True; sign changes nothing but the signature; a sign that raises an exception leaves the package as it was.", "quantifier": "every program, every number of sessions in either mode, every package, every correct signature scheme", "why_tests_cant": "All programs and histories; tests sign and verify one package once.", "anchors": ["python/package.c: package_sign, package_verify", "lib/pkg_sign.c: bpak_pkg_sign", "lib/pkg_verify.c: bpak_pkg_verify"]}
{"id": "C74", "title": "What a verified package says in Python", "statement": "Two package files with the same signature that both verify with the same key show a Python program the same attributes, metadata, parts and data of all parts covered by the hash or by a Merkle tree, unless a hash collision is at hand.", "quantifier": "every pair of package files, every signature scheme in which a signature fits one digest only", "why_tests_cant": "All tampered files; tests flip a few bits.", "anchors": ["python/package.c: package_verify", "lib/pkg_verify.c: bpak_pkg_verify"]}
{"id": "C75", "title": "Updates with the transport command", "statement": "bpak transport NEW --encode --origin OLD --output PATCH followed by bpak transport PATCH --decode --origin OLD --output OUT leaves OUT equal to NEW, byte for byte, and changes no file but PATCH and OUT; packages that need no origin need no --origin.", "quantifier": "every pair of packages, every transport setting, every set of file names, whatever the output files held before, every suffix array", "why_tests_cant": "All packages, origins and file systems; tests run a few prepared packages.", "anchors": ["src/transport.c: action_transport", "lib/pkg.c: bpak_pkg_open, bpak_pkg_transport_encode, bpak_pkg_transport_decode"]}
{"id": "C76", "title": "Files touched by the transport command", "statement": "The transport command changes no file but its output; if it fails, the output file is as it was before; it never destroys an input.", "quantifier": "every file system, every combination of arguments (also equal names), every failure", "why_tests_cant": "All failures and all aliasing; tests use distinct names and succeed.", "anchors": ["src/transport.c: action_transport", "lib/pkg.c: bpak_pkg_open"]}
{"id": "C77", "title": "Package objects after transport_encode and transport_decode in Python", "statement": "transport_encode followed by transport_decode gives back the package; afterwards the package objects involved show what their files hold, and further calls on them do not damage the files.", "quantifier": "every package, every origin, every later assignment", "why_tests_cant": "All programs that go on using the objects; tests close them at once.", "anchors": ["python/python_wrapper.c: m_transport_encode, m_transport_decode", "lib/pkg.c: bpak_pkg_transport_decode"]}
{"id": "C78", "title": "Verifying and reading untrusted packages is safe", "statement": "bpak_pkg_verify, bpak_verify_payload, bpak_pkg_part_sha256 and bpak_pkg_extract_file return a result or an error for every package file: no access outside the header and no endless loop, whatever the header says; a package not signed with the key is refused.", "quantifier": "every header content, every file content, every key, every reader", "why_tests_cant": "All malformed headers; tests use well-formed packages and a few corruptions.", "anchors": ["lib/pkg_verify.c: bpak_pkg_verify, bpak_pkg_part_sha256", "lib/verify.c: bpak_verify_payload, bpak_verify_merkle_tree", "lib/pkg.c: bpak_pkg_extract_file"]}
{"id": "C79", "title": "Extracting a transport-encoded part returns its encoded bytes", "statement": "bpak_pkg_extract_file on a part of an encoded package writes exactly the bytes stored for that part.", "quantifier": "every encoded package, every part, every padding", "why_tests_cant": "Depends on the padding of the part before encoding, for every size.", "anchors": ["lib/pkg.c: bpak_pkg_extract_file", "lib/bpak.c: bpak_part_size"]}
{"id": "C80", "title": "An update made with the commands arrives unchanged", "statement": "Two releases are made with bpak create followed by any commands (the new one with bpak transport --add for the parts that travel encoded). After bpak transport NEW --encode --origin OLD --output PATCH, bpak transport PATCH --decode --origin OLD --output OUT succeeds, OUT equals NEW byte for byte, no other file changes, and every file added to NEW can be extracted from OUT unchanged.", "quantifier": "every sequence of commands making the two releases, every file contents, every transport setting, every suffix array", "why_tests_cant": "Ranges over all histories of both packages and all their contents; a test runs a few prepared releases.", "anchors": ["src/create.c: action_create", "src/add.c: action_add", "src/transport.c: action_transport", "lib/transport_encode.c: bpak_transport_encode", "lib/transport_decode.c: bpak_transport_decode_start"]}
{"id": "C81", "title": "Patches have a bounded size", "statement": "A patch made by bpak_bsdiff takes at most 49 times the size of the target plus 48 bytes, with heatshrink compression at most twice that, whatever origin, target and suffix array are.", "quantifier": "every origin, every target, every suffix array", "why_tests_cant": "The worst case is adversarial data; tests measure a few typical files.", "anchors": ["lib/bsdiff.c: bpak_bsdiff, write_diff", "lib/heatshrink/heatshrink_encoder.c: heatshrink_encoder_poll"]}
{"id": "C82", "title": "A command line does what its options say", "statement": "For every bpak command: options may be given short or long, cut to a unique beginning, joined with their argument or not, in any order and behind the file name, and only the last value of each counts; all such spellings have the same effect. A command line with an unknown, misspelt, argumentless or misplaced option, without a file name or without the options the command needs exits with a nonzero status and changes no file; -h shows the usage and changes nothing. Every other command line performs the command its options describe on the package it names, and touches no other file (but --output). The options in the usage text and the manual exist, and no accepted option is silently ignored.", "quantifier": "every command line (list of words), every spelling and order of the options, every set of files", "why_tests_cant": "The combinations of spellings, orders and repetitions are unbounded; tests run a few dozen fixed command lines.", "anchors": ["src/main.c: main", "src/create.c: action_create", "src/add.c: action_add", "src/set.c: action_set", "src/delete.c: action_delete", "src/extract.c: action_extract", "src/sign.c: action_sign, action_verify", "src/transport.c: action_transport", "src/show.c: action_show", "src/compare.c: action_compare", "src/generate.c: action_generate", "src/misc.c: print_transport_usage"]}
{"id": "C83", "title": "The exit status tells how a command went", "statement": "bpak exits with status 0 exactly when the command completed without an error. Otherwise the status is 256 minus the number of one of bpak's errors, different errors give different statuses, each error has a text, and no failure wraps round to 0 or looks like another error. In particular bpak verify exits with 0 exactly for packages that are well formed and signed with the key given.", "quantifier": "every command line, every set of files, every key, every hash and signature implementation that reports bpak's errors", "why_tests_cant": "An error code travels through many functions that return lengths, counts or negative errors from the same variable; tests look at a few failures and only at zero or nonzero.", "anchors": ["src/main.c: main", "src/*.c: action_*", "include/bpak/bpak.h: enum bpak_errors", "lib/bpak.c: bpak_error_string", "lib/*.c"]}
{"id": "C84", "title": "Calls release what they acquire", "statement": "Whatever a call or command acquires (memory, open files, memory maps, library contexts) it has released when it returns, on success and on every error path, exactly once and with the function that belongs to it; it never writes through a NULL pointer from a failed allocation. Calls that hand something to the caller (opening a package, loading a key) hand over exactly that on success and nothing on failure.", "quantifier": "every input, every step at which a call may fail, every sequence of calls on a package, user-installed allocators or none, every point at which memory may run out", "why_tests_cant": "Every combination of inputs selects an error path and every acquisition may fail; tests run the success paths and a few errors.", "anchors": ["lib/mem.c: bpak_calloc, bpak_free, bpak_set_calloc_free", "lib/mbedtls_wrapper.c: bpak_crypto_load_public_key, bpak_crypto_load_private_key, bpak_crypto_parse_public_key, bpak_crypto_sign", "lib/pkg.c: bpak_pkg_open, bpak_pkg_close, bpak_pkg_extract_file", "lib/pkg_create.c: bpak_pkg_add_file, bpak_pkg_add_key", "lib/pkg_sign.c: bpak_pkg_sign", "lib/bsdiff.c: compressor_init, bpak_bsdiff_free", "lib/bspatch.c: bpak_bspatch_free", "lib/transport_decode.c: bpak_transport_decode_free", "src/*.c: action_*"]}
{"id": "C85", "title": "Python objects live exactly as long as they are referenced", "statement": "Whatever a Python program does with the module, in any order and whatever fails: no object is used after it was released or released twice; as long as the program has a package, part or metadata object the package is there and, unless closed, its file is open; once the program can no longer reach an object it has been released and its file closed.", "quantifier": "every program (sequence of calls, assignments and deletions of variables), every failing step, every amount of logging", "why_tests_cant": "Reference counts depend on the whole history of a program and on every error path; a test cannot observe a count that is one too high and rarely one that is one too low.", "anchors": ["python/package.c: package_init, package_dealloc, package_verify, package_sign, package_add_file, package_add_key, package_add_meta, package_get_parts, package_get_meta_list", "python/part.c: part_allocate, part_dealloc", "python/meta.c: meta_allocate, meta_dealloc, meta_set_rawdata", "python/python_wrapper.c: m_set_log_func, bpak_printf"]}
