(* HeaderModel.v -- model of struct bpak_header and lib/bpak.c.
   Definitions only.  All citations are to files under /repo. *)
From Coq Require Import String.
From Verif Require Import Base.

(* include/bpak/bpak.h:54-61 *)
Definition HEADER_MAGIC : Z := 1112555826.  (* 0x42504132 *)
Definition MAX_PARTS : nat := 32.
Definition MAX_META : nat := 32.
Definition METADATA_BYTES : Z := 1920.
Definition PART_ALIGN : Z := 512.
Definition META_ALIGN : Z := 8.
Definition SIGNATURE_MAX_BYTES : Z := 512.
(* include/bpak/bpak.h:63-65 (default value) *)
Definition CHUNK : Z := 4096.
(* sizeof(struct bpak_header) *)
Definition HDR_SIZE : Z := 4096.

(* include/bpak/bpak.h:159, 169 *)
Definition FLAG_EXCLUDE_FROM_HASH : Z := 1.
Definition FLAG_TRANSPORT : Z := 2.

(* include/bpak/bpak.h:71-76, 82-88 *)
Definition HASH_SHA256 : Z := 1.
Definition HASH_SHA384 : Z := 2.
Definition HASH_SHA512 : Z := 3.
Definition SIGN_RSA4096 : Z := 1.
Definition SIGN_PRIME256v1 : Z := 2.
Definition SIGN_SECP384r1 : Z := 3.
Definition SIGN_SECP521r1 : Z := 4.

(* include/bpak/bpak.h:224-230 struct bpak_meta_header (16 bytes, packed) *)
Record metah := mkMeta {
  m_id : Z; m_size : Z; m_offset : Z; m_ref : Z; m_pad : bytes }.

(* include/bpak/bpak.h:206-217 struct bpak_part_header (32 bytes, packed) *)
Record parth := mkPart {
  p_id : Z; p_size : Z; p_offset : Z; p_transport_size : Z;
  p_pad_bytes : Z; p_flags : Z; p_pad : Z }.

(* include/bpak/bpak.h:238-254 struct bpak_header (4096 bytes, packed) *)
Record header := mkHeader {
  h_magic : Z; h_pad0 : bytes;
  h_meta : list metah; h_parts : list parth; h_metadata : bytes;
  h_hash_kind : Z; h_signature_kind : Z; h_alignment : Z;
  h_payload_hash : bytes; h_key_id : Z; h_keystore_id : Z;
  h_pad1 : bytes; h_signature : bytes; h_signature_sz : Z }.

Definition zero_meta : metah := mkMeta 0 0 0 0 [0;0;0;0].
Definition zero_part : parth := mkPart 0 0 0 0 0 0 0.

(* field updates *)
Definition with_meta (h : header) (ms : list metah) : header :=
  mkHeader (h_magic h) (h_pad0 h) ms (h_parts h) (h_metadata h) (h_hash_kind h)
    (h_signature_kind h) (h_alignment h) (h_payload_hash h) (h_key_id h)
    (h_keystore_id h) (h_pad1 h) (h_signature h) (h_signature_sz h).
Definition with_parts (h : header) (ps : list parth) : header :=
  mkHeader (h_magic h) (h_pad0 h) (h_meta h) ps (h_metadata h) (h_hash_kind h)
    (h_signature_kind h) (h_alignment h) (h_payload_hash h) (h_key_id h)
    (h_keystore_id h) (h_pad1 h) (h_signature h) (h_signature_sz h).
Definition with_metadata (h : header) (d : bytes) : header :=
  mkHeader (h_magic h) (h_pad0 h) (h_meta h) (h_parts h) d (h_hash_kind h)
    (h_signature_kind h) (h_alignment h) (h_payload_hash h) (h_key_id h)
    (h_keystore_id h) (h_pad1 h) (h_signature h) (h_signature_sz h).
Definition with_payload_hash (h : header) (d : bytes) : header :=
  mkHeader (h_magic h) (h_pad0 h) (h_meta h) (h_parts h) (h_metadata h) (h_hash_kind h)
    (h_signature_kind h) (h_alignment h) d (h_key_id h)
    (h_keystore_id h) (h_pad1 h) (h_signature h) (h_signature_sz h).
Definition with_signature (h : header) (d : bytes) (sz : Z) : header :=
  mkHeader (h_magic h) (h_pad0 h) (h_meta h) (h_parts h) (h_metadata h) (h_hash_kind h)
    (h_signature_kind h) (h_alignment h) (h_payload_hash h) (h_key_id h)
    (h_keystore_id h) (h_pad1 h) d sz.
Definition with_key_id (h : header) (k : Z) : header :=
  mkHeader (h_magic h) (h_pad0 h) (h_meta h) (h_parts h) (h_metadata h) (h_hash_kind h)
    (h_signature_kind h) (h_alignment h) (h_payload_hash h) k
    (h_keystore_id h) (h_pad1 h) (h_signature h) (h_signature_sz h).
Definition with_keystore_id (h : header) (k : Z) : header :=
  mkHeader (h_magic h) (h_pad0 h) (h_meta h) (h_parts h) (h_metadata h) (h_hash_kind h)
    (h_signature_kind h) (h_alignment h) (h_payload_hash h) (h_key_id h)
    k (h_pad1 h) (h_signature h) (h_signature_sz h).
Definition with_hash_kind (h : header) (k : Z) : header :=
  mkHeader (h_magic h) (h_pad0 h) (h_meta h) (h_parts h) (h_metadata h) k
    (h_signature_kind h) (h_alignment h) (h_payload_hash h) (h_key_id h)
    (h_keystore_id h) (h_pad1 h) (h_signature h) (h_signature_sz h).

(* ---- on-disk layout -------------------------------------------------- *)
(* The packed structs are written with fwrite(&hdr, 1, sizeof(hdr)) and read
   with fread: lib/pkg.c:57, 175-190.  Little-endian host. *)
Definition enc_meta (m : metah) : bytes :=
  le 4 (m_id m) ++ le 2 (m_size m) ++ le 2 (m_offset m) ++ le 4 (m_ref m) ++ m_pad m.
Definition enc_part (p : parth) : bytes :=
  le 4 (p_id p) ++ le 8 (p_size p) ++ le 8 (p_offset p) ++ le 8 (p_transport_size p) ++
  le 2 (p_pad_bytes p) ++ [p_flags p] ++ [p_pad p].
Definition enc_header (h : header) : bytes :=
  le 4 (h_magic h) ++ h_pad0 h ++ flat_map enc_meta (h_meta h) ++
  flat_map enc_part (h_parts h) ++ h_metadata h ++
  [h_hash_kind h] ++ [h_signature_kind h] ++ le 2 (h_alignment h) ++
  h_payload_hash h ++ le 4 (h_key_id h) ++ le 4 (h_keystore_id h) ++
  h_pad1 h ++ h_signature h ++ le 2 (h_signature_sz h).

Definition dec_meta (b : bytes) : metah :=
  mkMeta (unle (slice 0 4 b)) (unle (slice 4 2 b)) (unle (slice 6 2 b))
         (unle (slice 8 4 b)) (slice 12 4 b).
Definition dec_part (b : bytes) : parth :=
  mkPart (unle (slice 0 4 b)) (unle (slice 4 8 b)) (unle (slice 12 8 b))
         (unle (slice 20 8 b)) (unle (slice 28 2 b)) (unle (slice 30 1 b))
         (unle (slice 31 1 b)).
(* [n] consecutive records of [sz] bytes *)
Fixpoint dec_array {A} (dec : bytes -> A) (sz : Z) (n : nat) (b : bytes) : list A :=
  match n with
  | O => []
  | S k => dec (slice 0 sz b) :: dec_array dec sz k (zdrop sz b)
  end.
Definition dec_header (b : bytes) : header :=
  mkHeader (unle (slice 0 4 b)) (slice 4 4 b)
    (dec_array dec_meta 16 MAX_META (slice 8 512 b))
    (dec_array dec_part 32 MAX_PARTS (slice 520 1024 b))
    (slice 1544 1920 b)
    (unle (slice 3464 1 b)) (unle (slice 3465 1 b)) (unle (slice 3466 2 b))
    (slice 3468 64 b) (unle (slice 3532 4 b)) (unle (slice 3536 4 b))
    (slice 3540 42 b) (slice 3582 512 b) (unle (slice 4094 2 b)).

(* ---- metadata -------------------------------------------------------- *)
(* index of the first element satisfying [p] (bpak_foreach_* with return) *)
Fixpoint find_index {A} (p : A -> bool) (l : list A) : option nat :=
  match l with
  | [] => None
  | x :: r => if p x then Some O
              else match find_index p r with Some i => Some (S i) | None => None end
  end.

(* lib/bpak.c:17-36; a pointer into hdr->meta[] is modelled by its index.
   On failure *meta = NULL. *)
Definition get_meta_int (h : header) (id ref : Z) (match_ref : bool) : res nat :=
  match find_index (fun m => (m_id m =? id) &&
                             (if match_ref then m_ref m =? ref else true)) (h_meta h) with
  | Some i => Ok i
  | None => Err E_NOT_FOUND
  end.
(* lib/bpak.c:38-43 *)
Definition get_meta (h : header) (id ref : Z) : res nat := get_meta_int h id ref true.
(* lib/bpak.c:45-49 *)
Definition get_meta_anyref (h : header) (id : Z) : res nat := get_meta_int h id 0 false.

(* lib/bpak.c:14-15 on a uint16_t, the result stored in a uint16_t *)
Definition meta_align16 (x : Z) : Z := u16 ((x + 7) / 8 * 8).

(* lib/bpak.c:57-77: the loop of bpak_add_meta from a given slot on, with the
   running uint16_t [off]; returns the updated slots and the result (index of
   the slot relative to the first one given). *)
Fixpoint add_meta_loop (id ref size off : Z) (l : list metah) : list metah * res nat :=
  match l with
  | [] => ([], Err E_NO_SPACE_LEFT)
  | m :: r =>
      if m_id m =? 0 then
        (mkMeta id size off ref (m_pad m) :: r,
         if off + size >? METADATA_BYTES then Err E_NO_SPACE_LEFT else Ok O)
      else if (m_id m =? id) && (m_ref m =? ref) then (m :: r, Err E_EXISTS)
      else
        let (r', x) := add_meta_loop id ref size (meta_align16 (u16 (off + m_size m))) r in
        (m :: r', match x with Ok i => Ok (S i) | e => e end)
  end.
(* lib/bpak.c:51-78; [size] is a uint16_t *)
Definition add_meta (h : header) (id ref size : Z) : header * res nat :=
  let (ms, x) := add_meta_loop id ref size 0 (h_meta h) in (with_meta h ms, x).

(* memmove(&md[dst], &md[src], n); memset(&md[src], 0, n) on the metadata
   block: lib/bpak.c:90-93.  Accesses outside metadata[1920] are UB. *)
Definition shift_metadata (md : bytes) (src dst n : Z) : res bytes :=
  if (dst <? 0) || (src + n >? METADATA_BYTES) || (dst + n >? METADATA_BYTES) then UB
  else
    let md1 := splice dst (slice src n md) md in
    Ok (splice src (zeros n) md1).

(* lib/bpak.c:88-106: the while loop and the final memset.  The argument is the
   list of slots *after* the current one; the result is the new contents of the
   current slot and the slots after it.  When the current slot is meta[31] the
   final memset(next_meta) writes meta[32], i.e. outside the table: UB. *)
Fixpoint del_meta_loop (adj : Z) (rest : list metah) (md : bytes) : res (list metah * bytes) :=
  match rest with
  | [] => UB
  | nm :: rest' =>
      if m_id nm =? 0 then Ok (nm :: zero_meta :: rest', md)
      else
        do md1 <- shift_metadata md (m_offset nm) (m_offset nm - adj) (m_size nm);
        let nm' := mkMeta (m_id nm) (m_size nm) (u16 (m_offset nm - adj)) (m_ref nm) (m_pad nm) in
        do (l, md2) <- del_meta_loop adj rest' md1;
        Ok (nm' :: l, md2)
  end.
(* lib/bpak.c:80-107, [i] is the index of the entry ([meta - hdr->meta]) *)
Definition del_meta (h : header) (i : nat) : res header :=
  match nth_error (h_meta h) i with
  | None => UB
  | Some m =>
      do (l, md) <- del_meta_loop (meta_align16 (m_size m)) (skipn (S i) (h_meta h)) (h_metadata h);
      Ok (with_metadata (with_meta h (firstn i (h_meta h) ++ l)) md)
  end.

(* bpak_get_meta_ptr (include/bpak/bpak.h:283-284) followed by a read/write of
   [n] bytes at byte [k] of the entry's data *)
Definition meta_read (h : header) (i : nat) (k n : Z) : res bytes :=
  match nth_error (h_meta h) i with
  | None => UB
  | Some m => if (m_offset m + k + n >? METADATA_BYTES) then UB
              else Ok (slice (m_offset m + k) n (h_metadata h))
  end.
Definition meta_write (h : header) (i : nat) (k : Z) (d : bytes) : res header :=
  match nth_error (h_meta h) i with
  | None => UB
  | Some m => if (m_offset m + k + zlen d >? METADATA_BYTES) then UB
              else Ok (with_metadata h (splice (m_offset m + k) d (h_metadata h)))
  end.

(* ---- parts ----------------------------------------------------------- *)
(* lib/bpak.c:109-120 *)
Definition get_part (h : header) (id : Z) : res nat :=
  match find_index (fun p => p_id p =? id) (h_parts h) with
  | Some i => Ok i
  | None => Err E_NOT_FOUND
  end.

Definition set_p_id (p : parth) (id : Z) : parth :=
  mkPart id (p_size p) (p_offset p) (p_transport_size p) (p_pad_bytes p) (p_flags p) (p_pad p).
Definition set_p_size (p : parth) (v : Z) : parth :=
  mkPart (p_id p) v (p_offset p) (p_transport_size p) (p_pad_bytes p) (p_flags p) (p_pad p).
Definition set_p_offset (p : parth) (v : Z) : parth :=
  mkPart (p_id p) (p_size p) v (p_transport_size p) (p_pad_bytes p) (p_flags p) (p_pad p).
Definition set_p_transport_size (p : parth) (v : Z) : parth :=
  mkPart (p_id p) (p_size p) (p_offset p) v (p_pad_bytes p) (p_flags p) (p_pad p).
Definition set_p_pad_bytes (p : parth) (v : Z) : parth :=
  mkPart (p_id p) (p_size p) (p_offset p) (p_transport_size p) v (p_flags p) (p_pad p).
Definition set_p_flags (p : parth) (v : Z) : parth :=
  mkPart (p_id p) (p_size p) (p_offset p) (p_transport_size p) (p_pad_bytes p) v (p_pad p).

(* lib/bpak.c:125-135 *)
Fixpoint add_part_loop (id : Z) (l : list parth) : list parth * res nat :=
  match l with
  | [] => ([], Err E_NO_SPACE_LEFT)
  | p :: r =>
      if p_id p =? 0 then (set_p_id p id :: r, Ok O)
      else if p_id p =? id then (p :: r, Err E_EXISTS)
      else let (r', x) := add_part_loop id r in
           (p :: r', match x with Ok i => Ok (S i) | e => e end)
  end.
(* lib/bpak.c:122-136 *)
Definition add_part (h : header) (id : Z) : header * res nat :=
  let (ps, x) := add_part_loop id (h_parts h) in (with_parts h ps, x).

(* lib/bpak.c:141-150, same convention as del_meta_loop: the argument is the
   slots after the deleted one *)
Fixpoint del_part_loop (rest : list parth) : list parth :=
  match rest with
  | [] => [zero_part]
  | n :: r => if p_id n =? 0 then zero_part :: n :: r else n :: del_part_loop r
  end.
(* lib/bpak.c:138-151 *)
Definition del_part (h : header) (i : nat) : res header :=
  match nth_error (h_parts h) i with
  | None => UB
  | Some _ => Ok (with_parts h (firstn i (h_parts h) ++ del_part_loop (skipn (S i) (h_parts h))))
  end.

(* lib/bpak.c:153-161 *)
Definition init_header : header :=
  mkHeader HEADER_MAGIC (zeros 4) (repeat zero_meta MAX_META) (repeat zero_part MAX_PARTS)
    (zeros METADATA_BYTES) HASH_SHA256 SIGN_PRIME256v1 PART_ALIGN (zeros 64) 0 0
    (zeros 42) (zeros 512) 0.

(* lib/bpak.c:239-245; p->size + p->pad_bytes is a uint64_t sum *)
Fixpoint valid_parts (l : list parth) : bool :=
  match l with
  | [] => true
  | p :: r => if p_id p =? 0 then true
              else if negb (u64 (p_size p + p_pad_bytes p) mod PART_ALIGN =? 0) then false
              else valid_parts r
  end.
(* lib/bpak.c:248-255; m->size + m->offset is an int sum *)
Fixpoint valid_metas (l : list metah) : bool :=
  match l with
  | [] => true
  | m :: r => if m_id m =? 0 then true
              else if (m_size m + m_offset m >? METADATA_BYTES) then false
              else valid_metas r
  end.
(* lib/bpak.c:233-261 *)
Definition valid_header (h : header) : res unit :=
  if negb (h_magic h =? HEADER_MAGIC) then Err E_BAD_MAGIC
  else if negb (valid_parts (h_parts h)) then Err E_BAD_ALIGNMENT
  else if negb (valid_metas (h_meta h)) then Err E_SIZE_ERROR
  else if h_hash_kind h =? 0 then Err E_NOT_SUPPORTED
  else Ok tt.

Definition has_flag (p : parth) (f : Z) : bool := negb (Z.land (p_flags p) f =? 0).

(* lib/bpak.c:280-286 (size_t result) *)
Definition part_size (p : parth) : Z :=
  if has_flag p FLAG_TRANSPORT then p_transport_size p
  else u64 (p_size p + p_pad_bytes p).
(* lib/bpak.c:288-294 *)
Definition part_size_wo_pad (p : parth) : Z :=
  if has_flag p FLAG_TRANSPORT then p_transport_size p else p_size p.

(* lib/bpak.c:268-275, [acc] is the off_t accumulator *)
Fixpoint part_offset_loop (id acc : Z) (l : list parth) : Z :=
  match l with
  | [] => acc
  | p :: r => if p_id p =? 0 then acc
              else if p_id p =? id then acc
              else part_offset_loop id (s64 (acc + part_size p)) r
  end.
(* lib/bpak.c:263-278 *)
Definition part_offset (h : header) (p : parth) : Z :=
  part_offset_loop (p_id p) HDR_SIZE (h_parts h).

(* lib/bpak.c:335-351; [bufsize] is *size on entry.  Ok d: d is copied to the
   caller's buffer and *size becomes its length. *)
Definition copyz_signature (h : header) (bufsize : Z) : header * res bytes :=
  if h_signature_sz h >? SIGNATURE_MAX_BYTES then (h, Err E_SIZE_ERROR)
  else if h_signature_sz h =? 0 then (h, Err E_SIZE_ERROR)
  else if h_signature_sz h >? bufsize then (h, Err E_SIZE_ERROR)
  else (with_signature h (zeros SIGNATURE_MAX_BYTES) 0,
        Ok (slice 0 (h_signature_sz h) (h_signature h))).

(* lib/bpak.c:353-364 *)
Definition set_key_id (h : header) (k : Z) : header := with_key_id h k.
Definition set_keystore_id (h : header) (k : Z) : header := with_keystore_id h k.

(* include/bpak/id.h:19-37 *)
Definition ID_BPAK_TRANSPORT : Z := 759479291.        (* 0x2d44bbfb *)
Definition ID_MERKLE_SALT : Z := 2090545043.          (* 0x7c9b2f93 *)
Definition ID_MERKLE_ROOT_HASH : Z := 3868182974.     (* 0xe68fc9be *)
Definition ID_KEYSTORE_PROVIDER_ID : Z := 4214652314. (* 0xfb367d9a *)
Definition ID_BPAK_VERSION : Z := 2589698921.         (* 0x9a5bab69 *)
Definition ID_PB_LOAD_ADDR : Z := 3521530443.         (* 0xd1e64a4b *)
Definition ID_BPAK_PACKAGE : Z := 4214169407.         (* 0xfb2f1f3f *)

(* include/bpak/bpak.h:187-191 struct bpak_transport_meta, 32 bytes.
   lib/bpak.c:366-390: alg_id_encode at byte 0, alg_id_decode at byte 4. *)
Definition add_transport_meta (h : header) (part_id enc dec : Z) : header * res unit :=
  match add_meta h ID_BPAK_TRANSPORT part_id 32 with
  | (h1, Ok i) =>
      match meta_write h1 i 0 (le 4 enc ++ le 4 dec) with
      | Ok h2 => (h2, Ok tt)
      | Err e => (h1, Err e)
      | UB => (h1, UB)
      | Stuck => (h1, Stuck)
      end
  | (h1, Err e) => (h1, Err e)
  | (h1, UB) => (h1, UB)
  | (h1, Stuck) => (h1, Stuck)
  end.

(* ---- strings --------------------------------------------------------- *)
(* lib/bpak.c:163-231 *)
Definition error_string (code : Z) : string :=
  if code =? 0 then "OK"
  else if code =? E_FAILED then "Failed"
  else if code =? E_NOT_FOUND then "Not found"
  else if code =? E_SIZE_ERROR then "Size error"
  else if code =? E_NO_SPACE_LEFT then "No space left"
  else if code =? E_BAD_ALIGNMENT then "Bad alignment"
  else if code =? E_SEEK_ERROR then "Seek error"
  else if code =? E_NOT_SUPPORTED then "Not supported"
  else if code =? E_NEEDS_MORE_DATA then "Needs more data"
  else if code =? E_WRITE_ERROR then "Write error"
  else if code =? E_DECOMPRESSOR_ERROR then "Decompressor error"
  else if code =? E_COMPRESSOR_ERROR then "Compressor error"
  else if code =? E_PATCH_READ_ORIGIN_ERROR then "Patch read origin error"
  else if code =? E_PATCH_WRITE_ERROR then "Patch write error"
  else if code =? E_READ_ERROR then "Read error"
  else if code =? E_BAD_MAGIC then "Bad magic"
  else if code =? E_UNSUPPORTED_HASH_ALG then "Unsupported hash algorithm"
  else if code =? E_BUFFER_TOO_SMALL then "Buffer too small"
  else if code =? E_FILE_NOT_FOUND then "File not found"
  else if code =? E_KEY_DECODE then "Could not decode key"
  else if code =? E_VERIFY_FAIL then "Verification failed"
  else if code =? E_SIGN_FAIL then "Signing failed"
  else if code =? E_UNSUPPORTED_KEY then "Unsupported key"
  else if code =? E_BAD_ROOT_HASH then "Bad root hash"
  else if code =? E_BAD_PAYLOAD_HASH then "Bad payload hash"
  else if code =? E_MISSING_META_DATA then "Missing meta data"
  else if code =? E_PACKAGE_UUID_MISMATCH then "Package UUID mismatch"
  else if code =? E_UNSUPPORTED_COMPRESSION then "Unsupported compression method"
  else if code =? E_KEY_NOT_FOUND then "Key not found"
  else if code =? E_KEYSTORE_ID_MISMATCH then "Keystore id mismatch"
  else if code =? E_EXISTS then "Object exists"
  else "Unknown".
(* lib/bpak.c:296-310 *)
Definition signature_kind_string (k : Z) : string :=
  if k =? SIGN_PRIME256v1 then "prime256v1"
  else if k =? SIGN_SECP384r1 then "secp384r1"
  else if k =? SIGN_SECP521r1 then "secp521r1"
  else if k =? SIGN_RSA4096 then "rsa4096"
  else "Unknown".
(* lib/bpak.c:312-324 *)
Definition hash_kind_string (k : Z) : string :=
  if k =? HASH_SHA256 then "sha256"
  else if k =? HASH_SHA384 then "sha384"
  else if k =? HASH_SHA512 then "sha512"
  else "Unknown".
(* lib/id.c:20-40 *)
Definition id_to_string (id : Z) : string :=
  if id =? ID_BPAK_PACKAGE then "bpak-package"
  else if id =? ID_BPAK_TRANSPORT then "bpak-transport"
  else if id =? ID_MERKLE_SALT then "merkle-salt"
  else if id =? ID_MERKLE_ROOT_HASH then "merkle-root-hash"
  else if id =? ID_PB_LOAD_ADDR then "pb-load-addr"
  else if id =? ID_BPAK_VERSION then "bpak-version"
  else if id =? ID_KEYSTORE_PROVIDER_ID then "keystore-provider-id"
  else "".
