# Formal model of bpak in Rocq (Coq 8.16.1)

## Approach

* Everything is an executable Gallina function over `Z` (with the C integer widths
  written out as explicit `mod 2^16 / 2^32 / 2^64` wraps where the code can wrap),
  `list Z` for byte strings, and records for the packed C structs.
* Results of C functions are `res A := Ok a | Err code | UB | Stuck`:
  `UB` is undefined behaviour (out-of-bounds access, negative memcpy length, NULL
  dereference), `Stuck` is a loop that does not terminate (fuel exhausted).  Neither is
  ever identified with a normal result.
* A file is a byte list; `fseek`+`fread`/`fwrite` become slice/splice with the short-read
  and gap-fill behaviour written out.  FILE* buffering and I/O errors are not modelled.
* Hash functions and signature schemes are parameters (Section variables or function
  arguments), with the assumed laws appearing as explicit hypotheses of the theorems.
* `theories/*.v` named `<X>Model.v` contain only definitions; `<X>Proofs.v` the lemmas;
  `<X>Spec.v` small independent specifications; `Properties*.v` only
  `Theorem ... Proof. exact lemma. Qed.` + `Print Assumptions`.

## Plan per property

| id | modelled | proof |
|----|----------|-------|
| C01 | struct layout as encoder/decoder of 4096 bytes | round trips by field lemmas |
| C02,C03 | get/add/del_part on 32-slot list | refinement to an ordered id list, induction over ops |
| C04-C07 | add/get/del_meta on slots + 1920-byte block | invariant by induction over ops; refutations by witness |
| C08,C09 | valid_header | equivalence with a declarative predicate; refutation with a hole |
| C10 | part_offset | prefix sums |
| C11-C13 | CRC table, bit-serial spec | finite table check lifted by linearity; injectivity |
| C14-C17 | merkle.c compute_size/init/write/finish | spec tree; loop invariants; arithmetic |
| C18 | verify_merkle_tree | refinement to compare with spec tree; collision extraction |
| C19-C21 | payload/header hash | chunk-loop invariants |
| C22,C23 | pkg_verify/pkg_sign with abstract scheme | case analysis + injectivity of encodings |
| C24 | copyz/write_raw_signature | case analysis; refutation for > 512 |
| C25-C30 | pkg.c/pkg_create.c on byte-list files | package well-formedness invariant |
| C31 | offtin/offtout | arithmetic |
| C32-C35 | bspatch/bsdiff | state machine simulation, control-stream invariant |
| C36,C37 | heatshrink encoder/decoder | bitstream refinement |
| C38,C39 | transport encode/decode | composition |
| C40,C41 | uuid, bin2hex | finite sweeps lifted, list induction |
| C42,C43 | keystore | case analysis |
| C44 | error_string | finite case analysis |
| C45,C46 | add_key, add_file with merkle | composition |

| C47,C48 | bspatch records | semantics of a record list; refutation by a truncated patch |
| C49 | bpak_meta_to_string | exact text and exact overflow per encoder; refutations |
| C50,C51 | system-call level model of the package calls, killed after any call | simulation + history invariant; refutations |
| C52-C57 | the commands of src/*.c after option parsing, as functions of the package file | refinement of command histories to a list-of-files specification; witnesses for refutations |
| C58 | package calls | equality of package files after deletion |
| C59 | the command line tool | closed form of the file (ImageSpec.v), kept by every command |
| C60 | src/compare.c | the table as a function of the two lists of entries and parts (ViewSpec.v); witnesses |
| C61 | src/show.c | printed lines against ViewSpec.v; witnesses |
| C62 | src/generate.c | induction over the part table; parser as a parameter |
| C63 | key handling of lib/mbedtls_wrapper.c | DER encoding of public keys specified; lengths computed; composition with C43, C62 |
| C64,C65 | transport decoding of arbitrary packages | fuel bounds for every decoder; contiguous-write invariant of patches, region invariant of trees, induction over the part table |
| C66-C72 | the Python extension module (python/package.c, meta.c, part.c): one package object, its Meta and Part objects, every program of calls, several sessions | refinement of an abstract package (settings, entries, files, objects) by induction over the program; frame invariants for read-only and closed packages |
| C73-C74 | Package.sign and Package.verify on top of that, sessions in both modes; the signature scheme is a parameter | the refinement extended by whose signature the package carries (induction over calls and sessions); C74 from the theorems behind C22 and C18, through the package file |
| C75-C77 | src/transport.c --encode/--decode on a file system of named files; the two Python functions | composition of C38 with opening and truncating; frame lemma; case analysis |
| C78-C79 | verification, digests and extraction with arbitrary headers; extraction of encoded parts | every loop of VerifyModel/MerkleModel/PkgModel returns Ok or Err by induction on the fuel; refutations |
| C80 | whole updates: two releases made by any commands, encode, decode, extract | every command within the limits keeps transport sizes zero and parts unencoded (CliFresh); the specification of the commands (C57-C58) then gives the conditions of C75 |
| C81 | size of patches, plain and heatshrink | every round of the main loop adds 24 bytes plus what it advances in the target; every token takes at most 16 bits and stands for a byte at least |
| C82 | command lines: getopt_long, main and the option handling of the actions | ArgModel: an explicit scanner over lists of words; ArgSpec: the spellings as an inductive relation. Scanner = relation by induction both ways; the actions then only look at the last value of each option; each described command is one of CliSpec.v |
| C83 | exit status | LowTac..LowArg: for every modelled function, the codes it can return are -30..-1, given the callbacks' are; PropertiesStatus: status 0 iff success, status = 256 + error otherwise; verify as an equivalence with C22. Assumes good_hash, reports_errors (mbedtls_wrapper.c maps mbedTLS codes) and file lengths < 2^63 |
| C84 | resources | AllocModel: every acquiring function over a monad that tracks what is held; data-dependent results come from an arbitrary oracle; use after release, double release, wrong function or NULL dereference is None. AllocProofs: for each function and error path, what is held at the end equals what was held (or plus what is handed over), by a Hoare-style `ends`. False parts refuted by concrete runs |
| C85 | Python reference counts | RefModel: heap of objects with counts and the references between them; each method in terms of new/incref/decref; programs over variables. Invariant: every count is the number of references held by variables, calls in progress, other objects and ghosts (leaked); RefCalls: each call keeps it and leaks only strings (lists: elements); RefPrograms: all programs by induction. False parts refuted by runs |

## Trusted base

1. **Coq 8.16.1's kernel** (and its `vm_compute` reduction machine, used for finite
   computations such as the CRC table and for witnesses).  No kernel check is switched off.
2. **Axioms: none.**  Every theorem in `Properties*.v` is followed by `Print Assumptions`
   and each prints `Closed under the global context`.  (A `coqchk`-style listing of every
   *loaded* library also shows the seven opaque constants `Coq.ssr.ssrunder.Under_rel.*`
   of the standard library's ssreflect `under` support; no theorem here depends on them.)
3. **The reading of the C source**, i.e. that each definition of a `*Model.v` file does what
   the cited lines of /repo do.  The code is not executed here.
4. **What is a parameter.**  These appear as universally quantified variables in the
   theorem statements, and every law assumed of them is a visible hypothesis:
   * `sha256/384/512` (a function from byte lists to byte lists; only its output length and
     that the outputs are bytes are assumed; collision resistance is never assumed -- the
     theorems conclude "or here is a collision");
   * the signature scheme, key parser and key encoder of mbedTLS;
   * the suffix array computed by `sais.c` (any permutation in C34; *any* array in C33);
   * liblzma's streaming coder and decoder (`LzSpec.v`: `lz_good` says that decoding a stream
     the coder produced gives back what was coded, in whatever buffers; `lz_progresses` that
     the decoder consumes, produces, finishes or fails);
   * memory contents left uninitialised by the code (`junk` arguments);
   * the platform: 64-bit `long`, `size_t`, `off_t`, little endian, 8-bit bytes, two's
     complement.
5. **Environment assumptions.**  One process uses a package at a time; I/O calls on regular
   files succeed, fully, except where a short read or missing file is modelled; memory
   allocation succeeds.  In the crash model (`CrashModel.v`) writes reach the kernel in
   program order, one `fwrite`+`fflush` at a time (FILE* buffers do not delay them past the next
   seek), the 4096-byte header write is atomic unless the event says `torn`, and power
   failures that reorder writes are not modelled.

## What is modelled

| source | model | remarks |
|--------|-------|---------|
| include/bpak/bpak.h, lib/bpak.c | HeaderModel | whole file, struct layout byte for byte |
| lib/bpakcrc.c, lib/id.c | CrcModel | whole files |
| lib/merkle.c | MerkleModel | whole file |
| lib/crypto.c, mbedtls hash wrappers | HashModel | streaming interface; hash function a parameter |
| lib/verify.c, lib/pkg_verify.c, lib/pkg_sign.c | VerifyModel | whole files |
| lib/pkg.c, lib/pkg_create.c | PkgModel | whole files |
| lib/bspatch.c | BspatchModel, HsPatchModel, LzModel | whole file; liblzma a parameter |
| lib/bsdiff.c | BsdiffModel, HsPatchModel, LzModel | whole file; liblzma and suffix array parameters; on failure, output already written is not kept |
| lib/heatshrink/* | HsModel | encoder and decoder as configured (window 8, lookahead 7 bits, no index) |
| lib/transport_encode.c, lib/transport_decode.c | TransportModel | whole files, built with or without LZMA |
| lib/utils.c, ext/uuid (parse, unparse, compare, isnull) | UtilModel | strtoul's white space, signs and prefix left out where uuid_parse has checked the characters |
| lib/keystore.c, lib/keystore_load_from_file.c | KeystoreModel | whole files |
| lib/pkg.c, lib/pkg_create.c at system-call level | CrashModel | the calls that write packages |
| src/create.c, add.c, set.c, delete.c, extract.c, sign.c, src/main.c (verify), transport.c (--add), misc.c | CliModel, ArgModel | whole actions from the words of the command line; getopt_long from the GNU manual; strtol/strtoul from the C standard; files can be opened if they exist, two names are two files; not followed: `add` and `extract --output` with the package itself as second file |
| src/transport.c (--encode, --decode), python/python_wrapper.c (transport_encode, transport_decode) | TransportCliModel | the action after getopt; when the output is one of the inputs, only up to the moment it is emptied; Python objects opened for writing |
| src/compare.c, src/show.c, src/generate.c | ViewModel, ArgModel | column layout, colours and verbose output are not modelled |
| lib/mbedtls_wrapper.c | HashModel, VerifyModel, MbedModel | hashing, sign/verify result codes, key loading; mbedTLS is a parameter |
| lib/mem.c, and what lib/*.c and src/*.c acquire and release | AllocModel | results that depend on data are arbitrary; library-internal allocations not followed |
| python/package.c, meta.c, part.c | PyModel, PySignModel | all methods and attributes except add_key, add_file(with_merkle_tree=True), as_uuid, repr; reference counts: RefModel |

Not modelled: `sais.c` internals, liblzma internals, mbedTLS internals (RSA/ECDSA/DER),
log output, FILE* buffering, the rest of the Python wrapper (see above).

## Where the code violates the property

The properties are stated as a user would expect them.  Where the faithful model violates one, the
theorem `Cxx_..._refuted` gives a concrete witness and `Cxx_..._partial` proves the
strongest statement found to hold; the manifest says `partial`.

| property | violation |
|----------|-----------|
| C05 | `bpak_add_meta` failing for lack of space leaves its slot written |
| C06, C28 | `bpak_del_meta` moves only as many bytes as the deleted value had: longer values behind it lose their tail |
| C07, C27 | `bpak_del_meta`/`bpak_pkg_delete_part` walk past a full metadata table |
| C08, C19 | `bpak_valid_header` stops at the first unused slot; entries after it are unchecked but used |
| C17 | sizes above 8 GiB are sized but not generated |
| C18 | padding of a one-block hash tree is not compared |
| C21 | too small a hash buffer yields BPAK_OK |
| C24 | raw signatures above 512 bytes overrun the header |
| C25, C26 | adding to a package with transport-encoded parts writes at the wrong offset |
| C27, C51 | deleting a part loops for ever when the file does not end with the last part |
| C27 | deleting part number 0 (which finds an unused table entry; Python: `get_part(0).delete()`) removes the package-level metadata in memory and loops for ever |
| C29 | `bpak_pkg_size` leaves out padding |
| C30 | a non-empty file shorter than a header is not refused when opened for update |
| C32 | the output a failing patch leaves behind depends on the chunking; an empty chunk makes an LZMA patch fail |
| C34 | the search reads one entry past the suffix array |
| C35 | negative lengths, far moves and an empty buffer in a patch |
| C38, C39 | transport: new parts, empty packages, encoding twice, missing uuid; the origin check reads the patch's offset in the origin's metadata block |
| C41 | `bpak_bin2hex` checks its bound too late |
| C43 | a key part above 512 bytes overruns the key buffer |
| C45 | the padding after a key is written from a one-byte variable (over-read for more than one padding byte) |
| C46 | files that are no whole number of blocks fail after the part was added |
| C48 | a truncated patch is not detected unless LZMA compressed |
| C49 | hash/version/uuid texts in small buffers |
| C50 | killed delete, torn header |
| C52 | names that start with 0x can be added but not addressed |
| C54 | `bpak set` with a longer text cuts longer values of other entries |
| C55 | texts of 65535 bytes, signatures above 512 bytes, unterminated encoder input; long metadata files cut silently |
| C57 | integers from 2^63 on refused, trailing garbage accepted |
| C58 | bytes of deleted metadata reappear in transport entries |
| C59 | removed metadata values stay in the file, so its bytes depend on the history |
| C60 | compare: NULL dereference for entries only the first package has, hash entries overrun the 64-byte buffer, new parts marked "-", prefixes count as equal, read error for parts that became shorter, exit status 0 for different packages |
| C61 | show: SHA-512 overruns the 128-byte buffer, long versions repeat the text before, --hash ignores errors |
| C62 | generate: .size of the part instead of the key, .verified = true without verification, key behind a transport-encoded part read from the wrong place |
| C63 | RSA keys do not fit in the 512-byte buffers of the keystore loader and the parser |
| C64 | decoding a package whose patch holds a negative length is undefined behaviour |
| C67 | Python: a file that cannot be opened is closed twice (`bpak_pkg_open` keeps the stream pointer, the destructor closes it again) |
| C68 | Python: a refused assignment on a read-only package changes the value in memory; add_meta with a str releases its buffer twice |
| C69 | Python: assignments, add_file, add_meta on a closed package use the NULL stream |
| C70 | Python: ints cut to 8 or 32 bits; hash_kind = 256 makes the package unusable; `del` of an attribute dereferences NULL |
| C71 | Python: add_meta of 65536 bytes or more can overrun the block; a refused entry stays in memory and is written later |
| C72 | Python: assigning hash_kind leaves a payload hash of the old kind in the file |
| C73 | Python (and C): a failing sign has already zeroed the signature in memory, the next assignment writes that; on a package opened 'r' sign raises, but verify then returns True for an unsigned file |
| C75 | `bpak transport` without --origin hands an uninitialised `struct bpak_package` to the library: decoding never succeeds |
| C76 | `bpak transport` empties the output before any check (also when it is the input or the origin), appends a header to inputs shorter than one, and decodes packages without parts to an empty package |
| C77 | Python transport_decode leaves the output object with its old header and the input object with the decoded one; the next assignment writes them to the files |
| C78 | a signature size above 512 is used before anything is checked; 32 bytes are read at a root/salt entry of any size |
| C79 | extraction takes the padding of the unencoded part off the encoded bytes, or fails |
| C82 | `transport -D`, `-p` and `--encode <name>` of the usage text are refused; `add --part --from-string` is accepted and always fails; options are silently ignored in combinations (`set --meta` with `--key-id`, `add --meta` with `--part`, ...); behind `--` an action takes its own name for the package; `generate` with an unknown generator reports success |
| C84 | loading a public key file keeps an mbedTLS context; `bpak_pkg_add_key` gives memory of the user's allocator to libc `free`; unchecked allocations (public key file, Merkle buffer, `set`, `generate`); with mbedTLS 3 private-key loading loses an entropy source and a generator per signature; the LZMA coder is allocated by malloc but freed by the user's function, and lost if the encoder cannot start or a patch fails; `transport --encode/--decode` never close the output; the input stays open if the origin cannot be opened; closing a package whose opening failed closes the file twice |
| C85 | Python: every call with a path keeps a reference to it; the elements of `parts` and `meta` are never released, so after `p.parts` the package is never deallocated and its file stays open; `set_log_func` keeps a borrowed reference (a temporary function is called after it was released); `add_meta` with a str whose header cannot be written releases the string twice; `Package` on a damaged file closes it twice |
| C28 | with a full metadata table, deleting all parts with their metadata runs past the table |
