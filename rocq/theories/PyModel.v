(* PyModel.v -- the Python extension module: python/package.c, python/meta.c,
   python/part.c.  Definitions only.  One Package object, the Meta and Part
   objects made from it, and the calls a Python program can make on them, in
   any order.
   verify and sign: PySignModel.v.
   Not modelled: add_key, add_file(with_merkle_tree=True) (the
   C functions behind them are: PkgModel), as_uuid (raw_data
   handed to uuid.UUID), repr, several packages (transport_encode/decode are
   in TransportModel), reference counts, memory exhaustion, set_log_func. *)
From Verif Require Import Base HeaderModel CrcModel HashModel MerkleModel VerifyModel PkgModel.

(* ---- objects ---------------------------------------------------------- *)
(* pkg.fp: NULL, an open stream (opened for writing or not), or a stream that
   was closed without clearing the pointer (lib/pkg.c:88) *)
Inductive stream := FpNull | FpOpen (writable : bool) | FpDangling.
(* python/python_wrapper.h:8-11 *)
Record pyobj := mkPy { py_fp : stream; py_pkg : pkg }.
(* python/python_wrapper.h:13-24: Meta and Part objects keep ids, no pointers *)
Inductive handle := HMeta (id ref : Z) | HPart (id : Z).
(* the k-th Meta/Part object made so far *)
Record pyst := mkSt { st_obj : pyobj; st_handles : list handle }.

Inductive pyexc :=
| XKey | XType | XValue | XOverflow | XIO | XSystem | XUnicode | XAttribute
| XError.                       (* bpak.Error *)
Inductive pyval :=
| VNone | VBool (b : bool) | VInt (n : Z) | VBytes (b : bytes) | VStr (b : bytes)
| VObj (k : nat) | VObjs (ks : list nat).
(* [Crash]: undefined behaviour in the extension module *)
Inductive pyres := Val (v : pyval) | Exc (e : pyexc) | Crash | Hang.
(* argument of an attribute assignment or keyword; [AStr]: code points;
   [ADel]: "del obj.attr", the setter is called with NULL *)
Inductive pyarg := AInt (n : Z) | ABytes (b : bytes) | AStr (cs : list Z) | ANone | AOther | ADel.

(* PyUnicode_AsASCIIString *)
Definition ascii (cs : list Z) : bool := forallb (fun c => c <? 128) cs.

Inductive attr := HashKind | SignatureKind | KeyId | KeystoreId.
Inductive pycall :=
| KClose                                              (* close(), __exit__ *)
| KAddFile (name : bytes) (data : option bytes)       (* content of the input file; None: no such file *)
| KAddMeta (id ref : Z) (data : option pyarg) (size : option Z)
| KGetPart (id : Z)
| KGetMeta (id ref : Z)
| KDigest
| KGet (a : attr)
| KSet (a : attr) (v : pyarg)
| KSignature
| KSetSignature (v : pyarg)
| KSize | KInstalledSize
| KParts | KMetas
(* on the k-th object *)
| KId (k : nat) | KSetId (k : nat) (v : pyarg)
| KRef (k : nat) | KSetRef (k : nat) (v : pyarg)
| KObjSize (k : nat)
| KRaw (k : nat) | KSetRaw (k : nat) (v : pyarg) | KString (k : nat)
| KOffset (k : nat) | KEncoded (k : nat) | KRead (k : nat)
| KDelete (k : nat).

(* memset(&package->pkg, 0, sizeof(package->pkg)): python/package.c:90 *)
Definition zero_header : header :=
  mkHeader 0 (zeros 4) (repeat zero_meta MAX_META) (repeat zero_part MAX_PARTS)
    (zeros METADATA_BYTES) 0 0 0 (zeros 64) 0 0 (zeros 42) (zeros 512) 0.

Definition st_header (s : pyst) : header := pk_header (py_pkg (st_obj s)).
Definition st_file (s : pyst) : bytes := pk_file (py_pkg (st_obj s)).
Definition with_pkg (s : pyst) (p : pkg) : pyst := mkSt (mkPy (py_fp (st_obj s)) p) (st_handles s).
Definition with_handles (s : pyst) (hs : list handle) : pyst := mkSt (st_obj s) hs.

(* package_write_header(package, false), python/package.c:12-27, after the
   header in memory has become [h]; then [v] is returned.  A stream opened for
   reading refuses to be written (fwrite returns 0). *)
Definition store (s : pyst) (h : header) (v : pyval) : pyst * pyres :=
  match py_fp (st_obj s) with
  | FpOpen true => (with_pkg s (pkg_write_header (mkPkg h (st_file s))), Val v)
  | FpOpen false => (with_pkg s (mkPkg h (st_file s)), Exc XIO)
  | _ => (s, Crash)
  end.

(* PyLong_Check and PyLong_AsUnsignedLong, then the assignment to an int or
   unsigned int *)
Definition as_uint (v : pyarg) : pyexc + Z :=
  match v with
  | AInt n => if (n <? 0) || (n >=? 18446744073709551616) then inl XOverflow else inr (u32 n)
  | _ => inl XType
  end.

(* constructor: python/package.c:50-83 on a file with content [f] after fopen
   (None: fopen failed).  When bpak_pkg_open fails after fopen it closes the
   stream and leaves the pointer in the object; the half-made object is then
   destroyed, which closes it again (python/package.c:42-48, lib/pkg.c:92-99) *)
Definition py_new (sha : hashfn) (w : bool) (f : option bytes) : option bytes * (pyst + pyres) :=
  match f with
  | None => (None, inr (Exc XError))
  | Some f =>
      match pkg_open sha w f with
      | (f', Ok p) => (Some f', inl (mkSt (mkPy (FpOpen w) p) []))
      | (f', Stuck) => (Some f', inr Hang)
      | (f', _) => (Some f', inr Crash)
      end
  end.

(* ---- attributes of Package (python/package.c:447-668) ------------------ *)
Definition get_attr (h : header) (a : attr) : Z :=
  match a with
  | HashKind => h_hash_kind h | SignatureKind => h_signature_kind h
  | KeyId => h_key_id h | KeystoreId => h_keystore_id h
  end.
(* hash_kind and signature_kind are uint8_t *)
Definition set_attr (h : header) (a : attr) (n : Z) : header :=
  match a with
  | HashKind => with_hash_kind h (u8 n)
  | SignatureKind =>
      mkHeader (h_magic h) (h_pad0 h) (h_meta h) (h_parts h) (h_metadata h) (h_hash_kind h)
        (u8 n) (h_alignment h) (h_payload_hash h) (h_key_id h)
        (h_keystore_id h) (h_pad1 h) (h_signature h) (h_signature_sz h)
  | KeyId => with_key_id h n
  | KeystoreId => with_keystore_id h n
  end.
(* :470-499 = 510-539 = 550-579 = 639-668.  PyLong_Check(NULL) dereferences NULL *)
Definition py_set_attr (s : pyst) (a : attr) (v : pyarg) : pyst * pyres :=
  match v with
  | ADel => (s, Crash)
  | _ => match as_uint v with
         | inl e => (s, Exc e)
         | inr n => store s (set_attr (st_header s) a n) VNone
         end
  end.

(* :581-589; reads signature_sz bytes of a 512-byte field *)
Definition py_signature (s : pyst) : pyres :=
  let h := st_header s in
  if h_signature_sz h >? 512 then Crash else Val (VBytes (slice 0 (h_signature_sz h) (h_signature h))).
(* :591-628 with lib/pkg.c:192-200.  When clearing, the result is ignored *)
Definition py_set_signature (s : pyst) (v : pyarg) : pyst * pyres :=
  let set (sig : bytes) (ignore : bool) :=
    if zlen sig >? 512 then (s, Crash)
    else
      match store s (with_signature (st_header s) (splice 0 sig (zeros 512)) (u16 (zlen sig))) VNone with
      | (s', Exc XIO) => (s', if ignore then Val VNone else Exc XError)
      | x => x
      end in
  match v with
  | ADel | ANone => set [] true
  | ABytes b => set b false
  | _ => (s, Exc XType)
  end.

(* :447-459 *)
Definition py_digest (sha : hashfn) (s : pyst) : pyst * pyres :=
  match pkg_update_hash sha (py_pkg (st_obj s)) (Some 128) with
  | (p, Ok (Some d)) =>
      match py_fp (st_obj s) with FpOpen _ => (with_pkg s p, Val (VBytes d)) | _ => (s, Crash) end
  | (p, Ok None) => (s, Crash)              (* the buffer was not written *)
  | (p, Err _) => (with_pkg s p, Val VNone)
  | (_, UB) => (s, Crash)
  | (_, Stuck) => (s, Hang)
  end.

(* ---- making Part and Meta objects -------------------------------------- *)
(* part_allocate (python/part.c:10-23), meta_allocate (python/meta.c:10-24) *)
Definition alloc (s : pyst) (x : handle) : pyst * pyres :=
  (with_handles s (st_handles s ++ [x]), Val (VObj (length (st_handles s)))).
Definition alloc_list (s : pyst) (xs : list handle) : pyst * pyres :=
  (with_handles s (st_handles s ++ xs), Val (VObjs (seq (length (st_handles s)) (length xs)))).
(* :684-764: bpak_foreach_part / bpak_foreach_meta with a break at the first
   unused slot *)
Fixpoint live_parts (l : list parth) : list handle :=
  match l with [] => [] | p :: r => if p_id p =? 0 then [] else HPart (p_id p) :: live_parts r end.
Fixpoint live_metas (l : list metah) : list handle :=
  match l with [] => [] | m :: r => if m_id m =? 0 then [] else HMeta (m_id m) (m_ref m) :: live_metas r end.

(* :373-399.  "I" takes any int modulo 2^32 *)
Definition py_get_part (s : pyst) (id : Z) : pyst * pyres :=
  match get_part (st_header s) (u32 id) with
  | Ok _ => alloc s (HPart (u32 id))
  | _ => (s, Exc XKey)
  end.
(* :401-429 *)
Definition py_get_meta (s : pyst) (id ref : Z) : pyst * pyres :=
  match get_meta (st_header s) (u32 id) (u32 ref) with
  | Ok _ => alloc s (HMeta (u32 id) (u32 ref))
  | _ => (s, Exc XKey)
  end.

(* bpak_pkg_add_file on a stream opened for reading: the first write fails
   (lib/pkg_create.c:257-262); without data only the header is written *)
Definition add_file_ro (sha : hashfn) (p : pkg) (data name : bytes) : pkg * res unit :=
  let h := pk_header p in
  let off := append_offset h in
  match add_part h (bpak_id name) with
  | (h1, Ok i) =>
      let h2 := fill_part h1 i (bpak_id name) (zlen data) off (pad_for (zlen data)) 0 in
      if s64 off <? 0 then (mkPkg h2 (pk_file p), Err E_SEEK_ERROR)
      else if zlen data >? 0 then (mkPkg h2 (pk_file p), Err E_WRITE_ERROR)
      else
        match pkg_update_hash sha (mkPkg h2 (pk_file p)) None with
        | (p', Ok _) => (p', Err E_WRITE_ERROR)
        | (p', Err e) => (p', Err e)
        | (p', UB) => (p', UB)
        | (p', Stuck) => (p', Stuck)
        end
  | (h1, Err e) => (mkPkg h1 (pk_file p), Err e)
  | (h1, UB) => (mkPkg h1 (pk_file p), UB)
  | (h1, Stuck) => (mkPkg h1 (pk_file p), Stuck)
  end.
(* bpak_pkg_delete_part on a stream opened for reading: moving data fails at
   the first write (a write of 0 bytes succeeds, and the loop goes on for ever),
   without data to move the header cannot be written (lib/pkg.c:532-577) *)
Definition delete_part_ro (sha : hashfn) (p : pkg) (id : Z) : pkg * res unit :=
  let h := pk_header p in
  match get_part h id with
  | Ok i =>
      match nth_error (h_parts h) i with
      | None => (p, UB)
      | Some q =>
          let off := u64 (part_offset h q) in
          let psize := part_size q in
          match del_part h i with
          | Ok h1 =>
              let (tail, todo) := shift_offsets psize (skipn i (h_parts h1)) 0 in
              let h2 := with_parts h1 (firstn i (h_parts h1) ++ tail) in
              match remove_meta_loop (fun m => m_ref m =? id) 100 0 h2 with
              | Ok h3 =>
                  if todo >? 0 then
                    if s64 (off + psize) <? 0 then (mkPkg h3 (pk_file p), Err E_READ_ERROR)
                    else if zlen (fread_at (pk_file p) (off + psize) CHUNK) =? 0 then (mkPkg h3 (pk_file p), Stuck)
                    else (mkPkg h3 (pk_file p), Err E_WRITE_ERROR)
                  else
                    match pkg_update_hash sha (mkPkg h3 (pk_file p)) None with
                    | (p', Ok _) => (p', Err E_WRITE_ERROR)
                    | (p', Err e) => (p', Err e)
                    | (p', UB) => (p', UB)
                    | (p', Stuck) => (p', Stuck)
                    end
              | Err e => (mkPkg h2 (pk_file p), Err e)
              | UB => (mkPkg h2 (pk_file p), UB)
              | Stuck => (mkPkg h2 (pk_file p), Stuck)
              end
          | _ => (p, UB)
          end
      end
  | Err e => (p, Err e)
  | UB => (p, UB)
  | Stuck => (p, Stuck)
  end.
(* result of a C function on the package: error codes become bpak.Error.  On a
   NULL stream [r] is what happens up to the first use of the stream. *)
Definition call_c (s : pyst) (x : pkg * res unit) : pyst * (pyres + unit) :=
  match py_fp (st_obj s), snd x with
  | FpOpen _, Ok _ => (with_pkg s (fst x), inr tt)
  | _, Ok _ => (s, inl Crash)
  | _, Err _ => (with_pkg s (fst x), inl (Exc XError))
  | _, UB => (s, inl Crash)
  | _, Stuck => (s, inl Hang)
  end.
(* :174-225.  On a NULL stream bpak_pkg_add_file seeks it once the part has
   been added to the header *)
Definition py_add_file (sha : hashfn) (s : pyst) (name : bytes) (data : option bytes) : pyst * pyres :=
  match data with
  | None => (s, Exc XError)
  | Some d =>
      let p := py_pkg (st_obj s) in
      let x := match py_fp (st_obj s) with
               | FpOpen true => pkg_add_file sha p d name 0
               | FpOpen false => add_file_ro sha p d name
               | _ => match add_part (pk_header p) (bpak_id name) with
                      | (_, Ok _) => (p, UB)
                      | (h1, Err e) => (mkPkg h1 (pk_file p), Err e)
                      | (h1, _) => (p, UB)
                      end
               end in
      match call_c s x with
      | (s', inl r) => (s', r)
      | (s', inr _) =>
          match get_part (st_header s') (bpak_id name) with
          | Ok _ => alloc s' (HPart (bpak_id name))
          | _ => (s', Exc XKey)
          end
      end
  end.

(* :273-371.  [size] is a Py_ssize_t, the size given to bpak_add_meta a
   uint16_t; the copy at :349 uses the former *)
Definition meta_arg (v : pyarg) : pyexc + bytes :=
  match v with
  | AStr cs => if ascii cs then inr (cs ++ [0]) else inl XUnicode
  | ABytes b => inr b
  | _ => inl XType
  end.
(* an object made from a str; it is released at :353, and again at :367 when the
   header could not be written (objects of length 0 and 1 are shared and live on) *)
Definition was_str (data : option pyarg) : bool :=
  match data with Some (AStr cs) => 1 <? zlen cs | _ => false end.
Definition py_add_meta (s : pyst) (id ref : Z) (data : option pyarg) (size : option Z) : pyst * pyres :=
  let sz0 := match size with Some n => n | None => -1 end in
  if (sz0 <? -9223372036854775808) || (sz0 >=? 9223372036854775808) then (s, Exc XOverflow)
  else
  match match data with
        | None => if sz0 <? 0 then inl XType else inr ([], sz0)
        | Some v => match meta_arg v with
                    | inl e => inl e
                    | inr d => inr (d, if sz0 <? 0 then zlen d else sz0)
                    end
        end with
  | inl e => (s, Exc e)
  | inr (d, n) =>
      match add_meta (st_header s) (u32 id) (u32 ref) (u16 n) with
      | (h1, Ok i) =>
          match meta_write h1 i 0 (ztake n d) with
          | Ok h2 =>
              match store s h2 VNone with
              | (s', Val _) => alloc s' (HMeta (u32 id) (u32 ref))
              | (s', Exc e) => (s', if was_str data then Crash else Exc e)
              | x => x
              end
          | _ => (s, Crash)
          end
      | (h1, Err _) => (with_pkg s (mkPkg h1 (st_file s)), Exc XError)
      | (_, _) => (s, Crash)
      end
  end.

(* ---- Meta and Part objects ---------------------------------------------- *)
Definition set_handle (s : pyst) (k : nat) (x : handle) : pyst := with_handles s (list_upd k x (st_handles s)).
(* python/meta.c:59-100, python/part.c:58-98.  The range check compares an
   unsigned int with itself *)
Definition py_set_id (s : pyst) (k : nat) (x : handle) (v : pyarg) : pyst * pyres :=
  match v with
  | ADel => (s, Crash)
  | _ =>
      match as_uint v with
      | inl e => (s, Exc e)
      | inr n =>
          match x with
          | HMeta id ref =>
              match get_meta (st_header s) id ref with
              | Ok i => match nth_error (h_meta (st_header s)) i with
                        | Some m => store (set_handle s k (HMeta n ref))
                                      (with_meta (st_header s) (list_upd i (mkMeta n (m_size m) (m_offset m) (m_ref m) (m_pad m)) (h_meta (st_header s)))) VNone
                        | None => (s, Crash)
                        end
              | _ => (s, Exc XKey)
              end
          | HPart id =>
              match get_part (st_header s) id with
              | Ok i => match nth_error (h_parts (st_header s)) i with
                        | Some p => store (set_handle s k (HPart n))
                                      (with_parts (st_header s) (list_upd i (set_p_id p n) (h_parts (st_header s)))) VNone
                        | None => (s, Crash)
                        end
              | _ => (s, Exc XKey)
              end
          end
      end
  end.
(* python/meta.c:110-153 *)
Definition py_set_ref (s : pyst) (k : nat) (id ref : Z) (v : pyarg) : pyst * pyres :=
  match v with
  | ADel => (s, Crash)
  | _ =>
      match (match v with ANone => inr 0 | _ => as_uint v end) with
      | inl e => (s, Exc e)
      | inr n =>
          match get_meta (st_header s) id ref with
          | Ok i => match nth_error (h_meta (st_header s)) i with
                    | Some m => store (set_handle s k (HMeta id n))
                                  (with_meta (st_header s) (list_upd i (mkMeta (m_id m) (m_size m) (m_offset m) n (m_pad m)) (h_meta (st_header s)))) VNone
                    | None => (s, Crash)
                    end
          | _ => (s, Exc XKey)
          end
      end
  end.
(* python/meta.c:172-187 *)
Definition py_raw (s : pyst) (id ref : Z) : pyres :=
  match get_meta (st_header s) id ref with
  | Ok i => match nth_error (h_meta (st_header s)) i with
            | Some m => match meta_read (st_header s) i 0 (m_size m) with Ok d => Val (VBytes d) | _ => Crash end
            | None => Crash
            end
  | _ => Exc XKey
  end.
(* python/meta.c:189-258: copy, then clear the rest of the entry *)
Definition py_set_raw (s : pyst) (id ref : Z) (v : pyarg) : pyst * pyres :=
  match get_meta (st_header s) id ref with
  | Ok i =>
      match v with
      | ADel => (s, Crash)
      | _ =>
          match meta_arg v with
          | inl e => (s, Exc e)
          | inr d =>
              match nth_error (h_meta (st_header s)) i with
              | Some m =>
                  if zlen d <=? m_size m then
                    match meta_write (st_header s) i 0 (d ++ zeros (m_size m - zlen d)) with
                    | Ok h => store s h VNone
                    | _ => (s, Crash)
                    end
                  else (s, Exc XValue)
              | None => (s, Crash)
              end
          end
      end
  | _ => (s, Exc XKey)
  end.
(* strlen from the start of the entry; None: no terminator in the block *)
Fixpoint strlen (l : bytes) : option Z :=
  match l with
  | [] => None
  | c :: r => if c =? 0 then Some 0 else match strlen r with Some n => Some (n + 1) | None => None end
  end.
(* python/meta.c:286-306.  Reading past the metadata block is [Crash] *)
Definition py_string (s : pyst) (id ref : Z) : pyres :=
  match get_meta (st_header s) id ref with
  | Ok i => match nth_error (h_meta (st_header s)) i with
            | Some m =>
                match strlen (zdrop (m_offset m) (h_metadata (st_header s))) with
                | Some n =>
                    let t := slice (m_offset m) (Z.min n (m_size m)) (h_metadata (st_header s)) in
                    if ascii t then Val (VStr t) else Exc XUnicode
                | None => Crash
                end
            | None => Crash
            end
  | _ => Exc XKey
  end.
(* python/part.c:155-192.  fread of one item of 0 bytes returns 0 *)
Definition py_read (s : pyst) (id : Z) : pyres :=
  match get_part (st_header s) id with
  | Ok i => match nth_error (h_parts (st_header s)) i with
            | Some p =>
                let n := part_size_wo_pad p in
                let off := part_offset (st_header s) p in
                if n >=? 9223372036854775808 then Exc XSystem
                else match py_fp (st_obj s) with
                | FpOpen _ =>
                    if off <? 0 then Exc XIO
                    else if (0 <? n) && (zlen (fread_at (st_file s) off n) =? n) then Val (VBytes (fread_at (st_file s) off n))
                    else Exc XIO
                | _ => Crash
                end
            | None => Crash
            end
  | _ => Exc XKey
  end.
(* getters that only look at the part header: python/part.c:100-153 *)
Definition part_attr (s : pyst) (id : Z) (f : header -> parth -> pyval) : pyres :=
  match get_part (st_header s) id with
  | Ok i => match nth_error (h_parts (st_header s)) i with Some p => Val (f (st_header s) p) | None => Crash end
  | _ => Exc XKey
  end.
(* python/meta.c:308-330, python/part.c:194-206 *)
Definition py_delete (sha : hashfn) (s : pyst) (x : handle) : pyst * pyres :=
  match x with
  | HMeta id ref =>
      match get_meta (st_header s) id ref with
      | Ok i => match del_meta (st_header s) i with
                | Ok h => store s h VNone
                | Stuck => (s, Hang)
                | _ => (s, Crash)
                end
      | _ => (s, Exc XKey)
      end
  | HPart id =>
      let p := py_pkg (st_obj s) in
      match call_c s (match py_fp (st_obj s) with
                      | FpOpen false => delete_part_ro sha p id
                      | _ => pkg_delete_part sha p id true
                      end) with
      | (s', inl r) => (s', r)
      | (s', inr _) => (s', Val VNone)
      end
  end.

(* close(): python/package.c:85-93 *)
Definition py_close (s : pyst) : pyst * pyres :=
  match py_fp (st_obj s) with
  | FpDangling => (s, Crash)
  | _ => (mkSt (mkPy FpNull (mkPkg zero_header (st_file s))) (st_handles s), Val VNone)
  end.

(* a method of the k-th object, or AttributeError *)
Definition on_meta (s : pyst) (k : nat) (f : Z -> Z -> pyst * pyres) : pyst * pyres :=
  match nth_error (st_handles s) k with Some (HMeta id ref) => f id ref | _ => (s, Exc XAttribute) end.
Definition on_part (s : pyst) (k : nat) (f : Z -> pyst * pyres) : pyst * pyres :=
  match nth_error (st_handles s) k with Some (HPart id) => f id | _ => (s, Exc XAttribute) end.
Definition on_any (s : pyst) (k : nat) (f : handle -> pyst * pyres) : pyst * pyres :=
  match nth_error (st_handles s) k with Some x => f x | None => (s, Exc XAttribute) end.

(* one call *)
Definition py_step (sha : hashfn) (s : pyst) (c : pycall) : pyst * pyres :=
  match c with
  | KClose => py_close s
  | KAddFile name data => py_add_file sha s name data
  | KAddMeta id ref data size => py_add_meta s id ref data size
  | KGetPart id => py_get_part s id
  | KGetMeta id ref => py_get_meta s id ref
  | KDigest => py_digest sha s
  | KGet a => (s, Val (VInt (get_attr (st_header s) a)))
  | KSet a v => py_set_attr s a v
  | KSignature => (s, py_signature s)
  | KSetSignature v => py_set_signature s v
  | KSize => (s, Val (VInt (s64 (pkg_size (py_pkg (st_obj s))))))
  | KInstalledSize => (s, Val (VInt (s64 (pkg_installed_size (py_pkg (st_obj s))))))
  | KParts => alloc_list s (live_parts (h_parts (st_header s)))
  | KMetas => alloc_list s (live_metas (h_meta (st_header s)))
  | KId k => on_any s k (fun x => (s, Val (VInt match x with HMeta id _ => id | HPart id => id end)))
  | KSetId k v => on_any s k (fun x => py_set_id s k x v)
  | KRef k => on_meta s k (fun _ ref => (s, Val (VInt ref)))
  | KSetRef k v => on_meta s k (fun id ref => py_set_ref s k id ref v)
  | KObjSize k =>
      on_any s k (fun x => (s,
        match x with
        | HMeta id ref =>
            match get_meta (st_header s) id ref with
            | Ok i => match nth_error (h_meta (st_header s)) i with Some m => Val (VInt (m_size m)) | None => Crash end
            | _ => Exc XKey
            end
        | HPart id => part_attr s id (fun _ p => VInt (s64 (part_size p)))
        end))
  | KRaw k => on_meta s k (fun id ref => (s, py_raw s id ref))
  | KSetRaw k v => on_meta s k (fun id ref => py_set_raw s id ref v)
  | KString k => on_meta s k (fun id ref => (s, py_string s id ref))
  | KOffset k => on_part s k (fun id => (s, part_attr s id (fun h p => VInt (part_offset h p))))
  | KEncoded k => on_part s k (fun id => (s, part_attr s id (fun _ p => VBool (has_flag p FLAG_TRANSPORT))))
  | KRead k => on_part s k (fun id => (s, py_read s id))
  | KDelete k => on_any s k (fun x => py_delete sha s x)
  end.
(* a program: the calls in order, up to the first that does not return *)
Fixpoint py_run (sha : hashfn) (s : pyst) (cs : list pycall) : pyst * list pyres :=
  match cs with
  | [] => (s, [])
  | c :: r =>
      match py_step sha s c with
      | (s1, Crash) => (s1, [Crash])
      | (s1, Hang) => (s1, [Hang])
      | (s1, x) => let (s2, xs) := py_run sha s1 r in (s2, x :: xs)
      end
  end.
(* "with Package(filename, 'r+') as p: <calls>", several times in a row on the
   same file; a session that does not finish is the last one *)
Definition finished (rs : list pyres) : bool :=
  forallb (fun r => match r with Crash | Hang => false | _ => true end) rs.
Fixpoint py_sessions (sha : hashfn) (f : bytes) (css : list (list pycall)) : bytes * list (list pyres) :=
  match css with
  | [] => (f, [])
  | cs :: rest =>
      match py_new sha true (Some f) with
      | (Some _, inl s) =>
          let (s', rs) := py_run sha s (cs ++ [KClose]) in
          if finished rs then let (f2, rss) := py_sessions sha (st_file s') rest in (f2, rs :: rss)
          else (st_file s', [rs])
      | (Some f1, inr r) => (f1, [[r]])
      | (None, _) => (f, [])
      end
  end.
