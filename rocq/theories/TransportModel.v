(* TransportModel.v -- lib/transport_encode.c, lib/transport_decode.c and the
   transport functions of lib/pkg.c.  Definitions only.
   The model is of a build with Merkle trees, with or without LZMA ([build]).  Files are their contents; fseek fails exactly on negative offsets;
   writes succeed.  bsdiff's direct writes to the file descriptor and the
   buffered stream are taken to be coherent (every stream use starts with
   fseek, which flushes).  bpak_printf is not modelled. *)
From Verif Require Import Base HeaderModel CrcModel HashModel MerkleModel VerifyModel BspatchModel BsdiffModel
  HsModel HsPatchModel LzModel.

(* *p = v for a pointer into hdr->parts *)
Definition set_part (h : header) (i : nat) (p : parth) : header := with_parts h (list_upd i p (h_parts h)).

(* ---- lib/transport_encode.c ---- *)
(* :62-81; [rd]/[wr]: stream positions *)
Fixpoint tcopy_loop (fuel : nat) (inp : bytes) (rd : Z) (out : bytes) (wr left : Z) : bytes * res unit :=
  if left =? 0 then (out, Ok tt)
  else match fuel with
  | O => (out, Stuck)
  | S k =>
      let chunk := if left >? 1024 then 1024 else left in
      let b := fread_at inp rd chunk in
      if zlen b =? chunk
      then tcopy_loop k inp (rd + chunk) (fwrite_at out wr b) (wr + chunk) (left - chunk)
      else (out, Err E_READ_ERROR)
  end.
(* :27-85 *)
Definition transport_copy (ih oh : header) (id : Z) (inp out : bytes) : bytes * res unit :=
  match get_part ih id with
  | Ok i =>
      match nth_error (h_parts ih) i with
      | None => (out, UB)
      | Some p =>
          if part_offset ih p <? 0 then (out, Err E_SEEK_ERROR)
          else if part_offset oh p <? 0 then (out, Err E_SEEK_ERROR)
          else tcopy_loop (Z.to_nat (part_size p / 1024 + 1)) inp (part_offset ih p) out (part_offset oh p) (part_size p)
      end
  | Err e => (out, Err e)
  | UB => (out, UB)
  | Stuck => (out, Stuck)
  end.

Section Build.
Variable bld : build.
(* :116-215.  [sais o]: contents of the suffix array for origin data [o], None
   if sais() fails.  The two files are mapped; bytes behind the end of a mapped
   file are treated as inaccessible (the rest of its last page really reads as
   zero).  [comp]: enum bpak_compression *)
Inductive cmode := MNone | MHs | MLz.
Definition transport_bsdiff (sais : bytes -> option (list Z)) (target : bytes) (toff tlen : Z) (origin : bytes) (ooff olen : Z)
    (out : bytes) (woff : Z) (comp : cmode) : bytes * res Z :=
  if zlen target =? 0 then (out, Err E_FAILED)
  else if zlen origin =? 0 then (out, Err E_FAILED)
  else if match comp with MLz => negb (b_lzma bld) | _ => false end
  then (out, Err E_UNSUPPORTED_COMPRESSION)                            (* lib/bsdiff.c:372 *)
  else if (toff <? 0) || (toff + tlen >? zlen target) || (ooff <? 0) || (ooff + olen >? zlen origin) then (out, UB)
  else
    let o := slice ooff olen origin in
    match sais o with
    | None => (out, Err E_FAILED)
    | Some sa =>
        match match comp with MNone => bsdiff_none | MHs => bsdiff_hs | MLz => bsdiff_lz (lz_enc (b_lib bld)) end
                o (slice toff tlen target) sa out woff with
        | Ok (out1, n) => (out1, Ok n)
        | Err e => (out, Err e)
        | UB => (out, UB)
        | Stuck => (out, Stuck)
        end
    end.

(* :217-350.  Result: output header, output file, return value.  [alg] is
   tm->alg_id_encode *)
Definition transport_encode_part (sais : bytes -> option (list Z)) (alg id : Z) (ih : header) (inp : bytes) (oh : header) (out : bytes)
    (origin : option pkg) : header * bytes * res unit :=
  let found := (do i <- get_part ih id;
                do j <- get_part oh id;
                do k <- match origin with
                        | Some q => do k <- get_part (pk_header q) id; Ok k
                        | None => Ok O
                        end;
                match nth_error (h_parts ih) i, nth_error (h_parts oh) j,
                      nth_error (match origin with Some q => h_parts (pk_header q) | None => [zero_part] end) k with
                | Some ip, Some op, Some gp => Ok (ip, j, op, gp)
                | _, _, _ => UB
                end) in
  match found with
  | Ok (ip, j, op, gp) =>
      if has_flag op FLAG_TRANSPORT then (oh, out, Ok tt)                          (* :262-263 *)
      else if match origin with Some q => part_offset (pk_header q) gp <? 0 | None => false end
      then (oh, out, Err (-1))                                                     (* :269-278 *)
      else if part_offset ih ip <? 0 then (oh, out, Err (-1))                      (* :280-285 *)
      else if part_offset oh op <? 0 then (oh, out, Err (-1))                      (* :287-294 *)
      else
        let done x :=                                                              (* :336-346 *)
          match x with
          | (out1, Ok n) =>
              if n <? 0 then (oh, out1, Err n)
              else (set_part oh j (set_p_flags (set_p_transport_size op n) (Z.lor (p_flags op) FLAG_TRANSPORT)), out1, Ok tt)
          | (out1, Err e) => (oh, out1, Err e)
          | (out1, UB) => (oh, out1, UB)
          | (out1, Stuck) => (oh, out1, Stuck)
          end in
        if (alg =? ID_BSDIFF) || (alg =? ID_BSDIFF_NO_COMP) || (alg =? ID_BSDIFF_LZMA) then
          match origin with
          | None => (oh, out, Err E_PATCH_READ_ORIGIN_ERROR)
          | Some q =>
              done (transport_bsdiff sais inp (part_offset ih ip) (part_size ip)
                      (pk_file q) (part_offset (pk_header q) gp) (part_size gp)
                      out (part_offset oh op)
                      (if alg =? ID_BSDIFF then MHs else if alg =? ID_BSDIFF_LZMA then MLz else MNone))
          end
        else if alg =? ID_REMOVE_DATA then done (out, Ok 0)
        else (oh, out, Err (-1))
  | Err e => (oh, out, Err e)
  | UB => (oh, out, UB)
  | Stuck => (oh, out, Stuck)
  end.

(* :361-388.  [bpak_get_meta_ptr] dereferences [meta] before the return code is
   looked at (:371, :381): with no package uuid in the header, meta is NULL *)
Definition check_same_uuid (qh ih : header) : res unit :=
  match get_meta qh ID_BPAK_PACKAGE 0 with
  | Ok i =>
      match get_meta ih ID_BPAK_PACKAGE 0 with
      | Ok j =>
          do a <- meta_read qh i 0 16;
          do b <- meta_read ih j 0 16;
          if bytes_eqb a b then Ok tt else Err E_PACKAGE_UUID_MISMATCH
      | _ => UB
      end
  | _ => UB
  end.
(* :393-427 *)
Fixpoint encode_loop (sais : bytes -> option (list Z)) (ih : header) (inp : bytes) (origin : option pkg) (l : list parth)
    (oh : header) (out : bytes) : header * bytes * res unit :=
  match l with
  | [] => (oh, out, Ok tt)
  | ph :: r =>
      if p_id ph =? 0 then (oh, out, Ok tt)
      else
        let x := match get_meta ih ID_BPAK_TRANSPORT (p_id ph) with
                 | Ok m =>
                     match meta_read ih m 0 4 with
                     | Ok b => transport_encode_part sais (unle b) (p_id ph) ih inp oh out origin
                     | _ => (oh, out, UB)
                     end
                 | _ => let '(out1, c) := transport_copy ih oh (p_id ph) inp out in (oh, out1, c)
                 end in
        match x with
        | (oh1, out1, Ok _) => encode_loop sais ih inp origin r oh1 out1
        | _ => x
        end
  end.
(* :352-451 and lib/pkg.c:391-411; [out]: the output file as it was opened.
   Result: output package (header and file) and return value.  When the uuid
   check fails the output header is not touched: [oh0] *)
Definition transport_encode (sais : bytes -> option (list Z)) (p : pkg) (oh0 : header) (out : bytes) (origin : option pkg) : pkg * res unit :=
  match match origin with Some q => check_same_uuid (pk_header q) (pk_header p) | None => Ok tt end with
  | Ok _ =>
      match encode_loop sais (pk_header p) (pk_file p) origin (h_parts (pk_header p)) (pk_header p) out with
      | (oh, out1, Ok _) => (mkPkg oh (fwrite_at out1 0 (enc_header oh)), Ok tt)
      | (oh, out1, r) => (mkPkg oh out1, r)
      end
  | r => (mkPkg oh0 out, r)
  end.

(* ---- lib/transport_decode.c with the callbacks of lib/pkg.c:202-257 ---- *)
(* :154-193.  Both uuids are read from the origin header (:177, :187) *)
Definition set_origin (qh ph : header) : res unit :=
  do i <- get_meta qh ID_BPAK_PACKAGE 0;
  do j <- get_meta ph ID_BPAK_PACKAGE 0;
  match nth_error (h_meta ph) j with
  | None => UB
  | Some m =>
      do a <- meta_read qh i 0 16;
      if m_offset m + 16 >? METADATA_BYTES then UB
      else if bytes_eqb a (slice (m_offset m) 16 (h_metadata qh)) then Ok tt else Err E_PACKAGE_UUID_MISMATCH
  end.

(* bpak_part_offset - sizeof(struct bpak_header) + ctx->output_offset, the
   latter being sizeof(struct bpak_header) (lib/pkg.c:285, 304) *)
Definition data_pos (h : header) (p : parth) : Z := s64 (part_offset h p - HDR_SIZE + HDR_SIZE).

(* the state of ctx->decoders *)
Inductive decoder :=
| DCopy (off : Z)                    (* copy_offset *)
| DPlain (ooff woff : Z) (c : bsctx)
| DHs (ooff woff ilen : Z) (c : hspctx)
| DLz (ooff woff : Z) (c : lzpctx (lz_dec (b_lib bld)))
| DMerkle.

(* decode_write_output / decode_read_output as a store *)
Definition file_io : io bytes :=
  mkIo (fun s o b => if o <? 0 then Err E_SEEK_ERROR else Ok (fwrite_at s o b))
       (fun s o n => file_rd s o n).

(* :90-118 *)
Fixpoint generate_loop (sha : hashfn) (fuel : nat) (c : mctx) (f : bytes) (pos left : Z) : res (mctx * bytes) :=
  if left =? 0 then Ok (c, f)
  else match fuel with
  | O => Stuck
  | S k =>
      let n := Z.min left CHUNK in
      match file_rd f pos n with
      | Ok b => do x <- merkle_write_chunk sha file_io c f b;
                generate_loop sha k (fst x) (snd x) (pos + n) (left - n)
      | _ => Err E_READ_ERROR
      end
  end.
(* :20-130.  Result: output file and the tree length *)
Definition merkle_generate (sha : hashfn) (h : header) (p : parth) (f : bytes) : res (bytes * Z) :=
  let fs_id := hash_tree_id_to_part_id h (p_id p) in
  if fs_id =? 0 then Err E_MISSING_META_DATA
  else
    do m <- get_meta h ID_MERKLE_SALT fs_id;
    do i <- get_part h fs_id;
    do salt <- meta_read h m 0 32;
    match nth_error (h_parts h) i with
    | None => UB
    | Some fs =>
        let '(c, r) := merkle_init file_io f (part_size fs) salt (data_pos h p) true in
        do f1 <- r;
        do x <- generate_loop sha (Z.to_nat (part_size fs / CHUNK + 1)) c f1 (data_pos h fs) (part_size fs);
        do y <- merkle_finish sha file_io (fst x) (snd x);
        Ok (fst y, merkle_get_size (fst x))
    end.

(* decode_write_output_header: lib/pkg.c:231-245 *)
Definition put_header (f : bytes) (h : header) : bytes := fwrite_at f 0 (enc_header h).

(* the algorithm id a decoder uses for a part: :212-225 *)
Definition decoder_id (h : header) (p : parth) : res Z :=
  if has_flag p FLAG_TRANSPORT then
    match get_meta h ID_BPAK_TRANSPORT (p_id p) with
    | Ok m => do b <- meta_read h m 4 4; Ok (unle b)
    | _ => Ok 0
    end
  else Ok 0.
(* :195-285 without the header write *)
Definition decode_start (h : header) (p : parth) (origin : option pkg) : res decoder :=
  do id <- decoder_id h p;
  if (id =? ID_BSPATCH) || (id =? ID_BSPATCH_NO_COMP) || (id =? ID_BSPATCH_LZMA) then
    match origin with
    | None => Err E_PATCH_READ_ORIGIN_ERROR
    | Some q =>
        if id =? ID_BSPATCH then Ok (DHs (data_pos (pk_header q) p) (data_pos h p) (part_size p) hsp_init)
        else if id =? ID_BSPATCH_NO_COMP then Ok (DPlain (data_pos (pk_header q) p) (data_pos h p) bs_init)
        else if b_lzma bld then Ok (DLz (data_pos (pk_header q) p) (data_pos h p) (lzp_init _))
        else Err E_UNSUPPORTED_COMPRESSION
    end
  else if id =? ID_MERKLE_GENERATE then Ok DMerkle
  else if id =? 0 then Ok (DCopy 0)
  else Err E_NOT_SUPPORTED.
(* :287-321; work buffer BPAK_CHUNK_BUFFER_LENGTH (lib/pkg.c:269), half of it
   for bspatch.  Simplification: when the output position is negative (part
   offset overflow) every patch chunk fails at once, with E_SEEK_ERROR *)
Definition PATCH_BUF : Z := 2048.
Definition decode_chunk (h : header) (p : parth) (qf : bytes) (d : decoder) (f b : bytes) : decoder * bytes * res unit :=
  match d with
  | DPlain ooff woff c =>
      if woff <? 0 then (d, f, Err E_SEEK_ERROR)
      else match bspatch_write qf ooff woff PATCH_BUF c f b with (c1, f1, r) => (DPlain ooff woff c1, f1, r) end
  | DHs ooff woff ilen c =>
      if woff <? 0 then (d, f, Err E_SEEK_ERROR)
      else match hsp_write qf ooff woff PATCH_BUF ilen c f b with (c1, f1, r) => (DHs ooff woff ilen c1, f1, r) end
  | DLz ooff woff c =>
      if woff <? 0 then (d, f, Err E_SEEK_ERROR)
      else match lzp_write _ qf ooff woff PATCH_BUF c f b with (c1, f1, r) => (DLz ooff woff c1, f1, r) end
  | DCopy off =>
      let pos := s64 (data_pos h p + off) in
      if pos <? 0 then (d, f, Err E_SEEK_ERROR)
      else (DCopy (off + zlen b), fwrite_at f pos b, Ok tt)
  | DMerkle => (d, f, Err E_NOT_SUPPORTED)
  end.
(* :323-376: header with the part marked as decoded and output file.  On
   failure the part header is not touched.  The final step of an LZMA patch may
   still write (and fails at once when the output position is negative, as
   above); of a failing tree generation the output file is not modelled *)
Definition decode_finish (sha : hashfn) (h : header) (i : nat) (p : parth) (qf : bytes) (d : decoder) (f : bytes) : header * bytes * res unit :=
  let x := match d with
           | DPlain _ _ c => (f, bspatch_final c)
           | DHs _ _ _ c => (f, bspatch_final (hp_bs c))
           | DLz ooff woff c =>
               if woff <? 0 then (f, Err E_SEEK_ERROR)
               else match lzp_final _ qf ooff woff PATCH_BUF c f with (_, f1, r) => (f1, r) end
           | DMerkle =>
               match merkle_generate sha h p f with
               | Ok (f1, n) => (f1, Ok n)
               | Err e => (f, Err e)
               | UB => (f, UB)
               | Stuck => (f, Stuck)
               end
           | DCopy _ => (f, Ok (s64 (part_size p)))
           end in
  match x with
  | (f1, Ok n) =>
      if n <? 0 then (h, f1, Err n)
      else if negb (n =? s64 (p_size p + p_pad_bytes p)) then (h, f1, Err E_SIZE_ERROR)
      else
        let h1 := set_part h i (set_p_transport_size (set_p_flags p (Z.land (p_flags p) (u8 (Z.lnot FLAG_TRANSPORT)))) 0) in
        (h1, put_header f1 h1, Ok tt)
  | (f1, Err e) => (h, f1, Err e)
  | (f1, UB) => (h, f1, UB)
  | (f1, Stuck) => (h, f1, Stuck)
  end.

(* ---- lib/pkg.c:259-389 ---- *)
(* :349-373; [pos]: position of the input stream *)
Fixpoint decode_chunks (fuel : nat) (h : header) (p : parth) (qf inp : bytes) (pos left : Z) (d : decoder) (f : bytes)
    : decoder * bytes * Z * res unit :=
  if left =? 0 then (d, f, pos, Ok tt)
  else match fuel with
  | O => (d, f, pos, Stuck)
  | S k =>
      let n := Z.min left CHUNK in
      let b := fread_at inp pos n in
      if zlen b =? n then
        match decode_chunk h p qf d f b with
        | (d1, f1, Ok _) => decode_chunks k h p qf inp (pos + n) (left - n) d1 f1
        | (d1, f1, r) => (d1, f1, pos + n, r)
        end
      else (d, f, pos, Err E_READ_ERROR)
  end.
(* :325-383: one part *)
Definition decode_part (sha : hashfn) (origin : option pkg) (inp : bytes) (h : header) (i : nat) (p : parth) (pos : Z) (f : bytes)
    : header * bytes * Z * res unit :=
  match match origin with
        | Some q => match get_part (pk_header q) (p_id p) with Ok _ => Ok tt | Err e => Err e | UB => UB | Stuck => Stuck end
        | None => Ok tt
        end with
  | Ok _ =>
      let f0 := put_header f h in
      match decode_start h p origin with
      | Ok d =>
          match decode_chunks (Z.to_nat (part_size p / CHUNK + 1)) h p
                  (match origin with Some q => pk_file q | None => [] end) inp pos (part_size p) d f0 with
          | (d1, f1, pos1, Ok _) =>
              match decode_finish sha h i p (match origin with Some q => pk_file q | None => [] end) d1 f1 with (h1, f2, r) => (h1, f2, pos1, r) end
          | (_, f1, pos1, r) => (h, f1, pos1, r)
          end
      | Err e => (h, f0, pos, Err e)
      | UB => (h, f0, pos, UB)
      | Stuck => (h, f0, pos, Stuck)
      end
  | Err e => (h, f, pos, Err e)
  | UB => (h, f, pos, UB)
  | Stuck => (h, f, pos, Stuck)
  end.
(* :320-384; the parts are visited in the header that is being modified *)
Fixpoint decode_loop (sha : hashfn) (origin : option pkg) (inp : bytes) (n : nat) (h : header) (i : nat) (pos : Z) (f : bytes)
    : header * bytes * res unit :=
  match n with
  | O => (h, f, Ok tt)
  | S k =>
      match nth_error (h_parts h) i with
      | None => (h, f, UB)
      | Some p =>
          if p_id p =? 0 then (h, f, Ok tt)
          else match decode_part sha origin inp h i p pos f with
          | (h1, f1, pos1, Ok _) => decode_loop sha origin inp k h1 (S i) pos1 f1
          | (h1, f1, _, r) => (h1, f1, r)
          end
      end
  end.
(* :259-389; [f]: the output file as it was opened.  Result: the input
   package's header (which is modified), the output file, the return value *)
Definition transport_decode (sha : hashfn) (p : pkg) (f : bytes) (origin : option pkg) : header * bytes * res unit :=
  match match origin with Some q => set_origin (pk_header q) (pk_header p) | None => Ok tt end with
  | Ok _ => decode_loop sha origin (pk_file p) MAX_PARTS (pk_header p) 0 HDR_SIZE f
  | Err e => (pk_header p, f, Err e)
  | UB => (pk_header p, f, UB)
  | Stuck => (pk_header p, f, Stuck)
  end.
End Build.
Arguments DCopy {bld}.
Arguments DPlain {bld}.
Arguments DHs {bld}.
Arguments DLz {bld}.
Arguments DMerkle {bld}.
