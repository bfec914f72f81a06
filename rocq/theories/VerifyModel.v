(* VerifyModel.v -- lib/verify.c, the hashing/verifying half of lib/pkg.c,
   lib/pkg_verify.c and lib/pkg_sign.c.  Definitions only.
   File offsets are Z (off_t wrap-around at 2^63 is only modelled inside
   bpak_part_offset, see HeaderModel). *)
From Verif Require Import Base HeaderModel CrcModel HashModel MerkleModel.

(* the read_payload callback: Ok = a full read, Err = any other return *)
Definition rdfn := Z -> Z -> res bytes.
(* lib/pkg.c:101-113 and lib/pkg_verify.c:20-34 on a file with content [f] *)
Definition file_rd (f : bytes) : rdfn := fun o n =>
  if o <? 0 then Err E_SEEK_ERROR
  else if zlen (fread_at f o n) =? n then Ok (fread_at f o n) else Err E_READ_ERROR.

(* ---- lib/verify.c:20-59 ---- *)
(* Ok None: BPAK_OK is returned although hash_final failed (:51-58): output
   and *size are untouched *)
Definition compute_header_hash (sha : hashfn) (h : header) (room : Z) : res (option bytes) :=
  do c <- hash_init (h_hash_kind h);
  let c := hash_update c (slice 0 (4096 - 512 - 2) (enc_header h)) in
  let c := hash_update c (zeros (512 + 2)) in
  match hash_final sha c room with
  | Ok d => Ok (Some d)
  | _ => Ok None
  end.

(* ---- lib/verify.c:61-117 ---- *)
(* :88-106, a do/while loop *)
Fixpoint hash_part_loop (rd : rdfn) (fuel : nat) (c : hctx) (pos left : Z) : res (hctx * Z) :=
  match fuel with
  | O => Stuck
  | S k =>
      let chunk := if left >? CHUNK then CHUNK else left in
      match rd pos chunk with
      | Ok b =>
          let c := hash_update c b in
          let left := left - chunk in
          let pos := pos + chunk in
          if left =? 0 then Ok (c, pos) else hash_part_loop rd k c pos left
      | Err _ => Err E_READ_ERROR
      | UB => UB
      | Stuck => Stuck
      end
  end.
(* :76-107 *)
Fixpoint hash_parts_loop (rd : rdfn) (c : hctx) (pos : Z) (l : list parth) : res hctx :=
  match l with
  | [] => Ok c
  | p :: r =>
      if p_id p =? 0 then hash_parts_loop rd c pos r
      else if has_flag p FLAG_EXCLUDE_FROM_HASH then hash_parts_loop rd c (pos + part_size p) r
      else
        do x <- hash_part_loop rd (Z.to_nat (part_size p / CHUNK + 1)) c pos (part_size p);
        let '(c', pos') := x in hash_parts_loop rd c' pos' r
  end.
Definition compute_payload_hash (sha : hashfn) (h : header) (rd : rdfn) (data_offset room : Z) : res bytes :=
  do c <- hash_init (h_hash_kind h);
  do c <- hash_parts_loop rd c data_offset (h_parts h);
  hash_final sha c room.

(* ---- lib/verify.c:119-230 ---- *)
(* merkle_verify_wr :125-154 (bpak_merkle always writes 32 bytes, so its loop
   runs once) and merkle_verify_rd :156-161; the store is read-only *)
Definition verify_io (rd : rdfn) : io unit :=
  mkIo (fun _ o b => do x <- rd o (zlen b); if bytes_eqb b x then Ok tt else Err E_VERIFY_FAIL)
       (fun _ o n => rd o n).
(* :192-214 *)
Fixpoint verify_data_loop (sha : hashfn) (rd : rdfn) (fuel : nat) (c : mctx) (pos left : Z) : res mctx :=
  if left =? 0 then Ok c
  else match fuel with
  | O => Stuck
  | S k =>
      let n := Z.min left CHUNK in
      do b <- rd pos n;
      do x <- merkle_write_chunk sha (verify_io rd) c tt b;
      verify_data_loop sha rd k (fst x) (pos + n) (left - n)
  end.
(* :163-230 *)
Definition verify_merkle_tree (sha : hashfn) (rd : rdfn) (data_offset data_length tree_offset : Z)
    (expected salt : bytes) : res unit :=
  let '(c, r) := merkle_init (verify_io rd) tt data_length salt tree_offset false in
  do _ <- r;
  do c <- verify_data_loop sha rd (Z.to_nat (data_length / CHUNK + 1)) c data_offset data_length;
  do x <- merkle_finish sha (verify_io rd) c tt;
  if bytes_eqb (snd x) expected then Ok tt else Err E_BAD_ROOT_HASH.

(* ---- lib/verify.c:233-324 ---- *)
(* :262-320 *)
Fixpoint verify_trees_loop (sha : hashfn) (h : header) (rd : rdfn) (data_offset : Z) (l : list parth)
    : res unit :=
  match l with
  | [] => Ok tt
  | p :: r =>
      if p_id p =? 0 then verify_trees_loop sha h rd data_offset r
      else match get_meta h ID_MERKLE_ROOT_HASH (p_id p) with
      | Ok mi =>
          do root <- meta_read h mi 0 32;
          match get_meta h ID_MERKLE_SALT (p_id p) with
          | Ok si =>
              do salt <- meta_read h si 0 32;
              do ti <- get_part h (part_id_to_hash_tree_id (p_id p));
              match nth_error (h_parts h) ti with
              | None => UB
              | Some t =>
                  do _ <- verify_merkle_tree sha rd
                            (part_offset h p - HDR_SIZE + data_offset) (part_size p)
                            (part_offset h t - HDR_SIZE + data_offset) root salt;
                  verify_trees_loop sha h rd data_offset r
              end
          | _ => Err E_MISSING_META_DATA
          end
      | _ => verify_trees_loop sha h rd data_offset r
      end
  end.
Definition verify_payload (sha : hashfn) (h : header) (rd : rdfn) (data_offset : Z) : res unit :=
  do hash <- compute_payload_hash sha h rd data_offset 64;
  if bytes_eqb hash (slice 0 (zlen hash) (h_payload_hash h))
  then verify_trees_loop sha h rd data_offset (h_parts h)
  else Err E_BAD_PAYLOAD_HASH.

(* ---- packages ---- *)
(* struct bpak_package: the header in memory and the file *)
Record pkg := mkPkg { pk_header : header; pk_file : bytes }.

(* the signature back end (lib/crypto.c:64-150, mbedtls): parameters *)
Record sigscheme (K : Type) := mkSig {
  sg_verify : bytes -> bytes -> Z -> K -> res bool;     (* signature hash kind key *)
  sg_sign : bytes -> Z -> K -> res bytes }.             (* hash kind key: at most 512 bytes *)
Arguments mkSig {K}. Arguments sg_verify {K}. Arguments sg_sign {K}.

Definition with_payload_hash (h : header) (d : bytes) : header :=
  mkHeader (h_magic h) (h_pad0 h) (h_meta h) (h_parts h) (h_metadata h) (h_hash_kind h)
    (h_signature_kind h) (h_alignment h) d (h_key_id h) (h_keystore_id h) (h_pad1 h)
    (h_signature h) (h_signature_sz h).

(* lib/pkg.c:115-141; [room] is Some *size when output and size are not NULL.
   The payload hash buffer is only written when the computation succeeds. *)
Definition pkg_update_hash (sha : hashfn) (p : pkg) (room : option Z) : pkg * res (option bytes) :=
  match compute_payload_hash sha (pk_header p) (file_rd (pk_file p)) HDR_SIZE 64 with
  | Ok d =>
      let h := with_payload_hash (pk_header p) (splice 0 d (h_payload_hash (pk_header p))) in
      let p' := mkPkg h (pk_file p) in
      match room with
      | None => (p', Ok None)
      | Some n => (p', compute_header_hash sha h n)
      end
  | Err e => (p, Err e)
  | UB => (p, UB)
  | Stuck => (p, Stuck)
  end.
(* lib/pkg.c:175-190 *)
Definition pkg_write_header (p : pkg) : pkg :=
  mkPkg (pk_header p) (fwrite_at (pk_file p) 0 (enc_header (pk_header p))).
(* lib/pkg.c:192-200: the memcpy at :197 is not checked against the 512-byte
   field; signature_sz is a uint16_t *)
Definition pkg_write_raw_signature (p : pkg) (sig : bytes) : res pkg :=
  if zlen sig >? 512 then UB
  else Ok (pkg_write_header
        (mkPkg (with_signature (pk_header p) (splice 0 sig (zeros 512)) (u16 (zlen sig))) (pk_file p))).

(* lib/pkg_verify.c:36-76.  [junk] is the indeterminate content of hash_output,
   used when no digest was produced.  The back end is handed a pointer to the
   512-byte signature field together with signature_sz: a larger size is an
   out-of-bounds argument. *)
Definition pkg_verify {K} (sha : hashfn) (sg : sigscheme K) (junk : bytes) (p : pkg) (key : K) : res unit :=
  let h := pk_header p in
  do x <- compute_header_hash sha h 64;
  let hash := match x with Some d => d | None => junk end in
  if h_signature_sz h >? 512 then UB
  else
    do v <- sg_verify sg (slice 0 (h_signature_sz h) (h_signature h)) hash (h_hash_kind h) key;
    if v then verify_payload sha h (file_rd (pk_file p)) HDR_SIZE else Err E_VERIFY_FAIL.

(* lib/pkg_sign.c:20-63 with the key already loaded *)
Definition pkg_sign {K} (sha : hashfn) (sg : sigscheme K) (junk : bytes) (p : pkg) (key : K) : pkg * res unit :=
  match pkg_update_hash sha p (Some 64) with
  | (p1, Ok x) =>
      let hash := match x with Some d => d | None => junk end in
      match sg_sign sg hash (h_hash_kind (pk_header p1)) key with
      | Ok s =>
          (pkg_write_header (mkPkg (with_signature (pk_header p1) (splice 0 s (zeros 512)) (u16 (zlen s)))
              (pk_file p1)), Ok tt)
      | Err e => (mkPkg (with_signature (pk_header p1) (zeros 512) (h_signature_sz (pk_header p1))) (pk_file p1), Err e)
      | UB => (p1, UB)
      | Stuck => (p1, Stuck)
      end
  | (p1, Err e) => (p1, Err e)
  | (p1, UB) => (p1, UB)
  | (p1, Stuck) => (p1, Stuck)
  end.

(* lib/pkg_verify.c:112-126 *)
Fixpoint sha256_loop (f : bytes) (fuel : nat) (c : hctx) (pos left : Z) : res hctx :=
  if left =? 0 then Ok c
  else match fuel with
  | O => Stuck
  | S k =>
      let n := if left >? CHUNK then CHUNK else left in
      let b := fread_at f pos n in
      if zlen b =? n then sha256_loop f k (hash_update c b) (pos + n) (left - n)
      else Err E_READ_ERROR
  end.
(* lib/pkg_verify.c:78-133 *)
Definition pkg_part_sha256 (sha : hashfn) (p : pkg) (id room : Z) : res bytes :=
  do i <- get_part (pk_header p) id;
  match nth_error (h_parts (pk_header p)) i with
  | None => UB
  | Some q =>
      do c <- hash_init HASH_SHA256;
      let off := part_offset (pk_header p) q in
      if off <? 0 then Err E_SEEK_ERROR
      else
        do c <- sha256_loop (pk_file p) (Z.to_nat (part_size_wo_pad q / CHUNK + 1)) c off (part_size_wo_pad q);
        hash_final sha c room
  end.
