(* PkgModel.v -- lib/pkg.c and lib/pkg_create.c: packages as files.
   Definitions only.  A package is the header in memory plus the content of
   its file (VerifyModel.pkg); writes to the file succeed (no I/O errors, no
   full disk) and the input file does not change between stat and read.
   Functions return the new package state also when they fail. *)
From Verif Require Import Base HeaderModel CrcModel HashModel MerkleModel VerifyModel.

(* ---- lib/pkg.c:25-90 ---- *)
(* [f]: file content after fopen(filename, mode); [writable]: the mode allows
   writing.  A short read leaves the position at the end of the file, where
   the fwrite at :61 goes.  Result: file content and package. *)
Definition pkg_open (sha : hashfn) (writable : bool) (f : bytes) : bytes * res pkg :=
  let b := fread_at f 0 HDR_SIZE in
  if zlen b =? HDR_SIZE then
    let h := dec_header b in
    (f, do _ <- valid_header h; Ok (mkPkg h f))
  else
    match pkg_update_hash sha (mkPkg init_header f) None with
    | (p, Ok _) =>
        if negb writable then (f, Err E_WRITE_ERROR)
        else
          let f' := fwrite_at f (zlen f) (enc_header (pk_header p)) in
          (f', do _ <- valid_header (pk_header p); Ok (mkPkg (pk_header p) f'))
    | (_, Err e) => (f, Err e)
    | (_, UB) => (f, UB)
    | (_, Stuck) => (f, Stuck)
    end.

(* ---- sizes ---- *)
(* lib/pkg.c:143-152 (size_t sum over all 32 slots) *)
Definition pkg_installed_size (p : pkg) : Z :=
  fold_left (fun acc q => u64 (acc + (p_size q + p_pad_bytes q))) (h_parts (pk_header p)) 0.
(* lib/pkg.c:154-168 *)
Definition pkg_size (p : pkg) : Z :=
  u64 (fold_left (fun acc q => u64 (acc + if has_flag q FLAG_TRANSPORT then p_transport_size q else p_size q))
         (h_parts (pk_header p)) 0 + HDR_SIZE).
(* lib/pkg_create.c:208,220-222 = 300,308-310 = 50,122-124 *)
Definition append_offset (h : header) : Z :=
  fold_left (fun acc q => u64 (acc + (p_size q + p_pad_bytes q))) (h_parts h) HDR_SIZE.

(* update hash, write header: lib/pkg_create.c:279-286 and others *)
Definition hash_and_write (sha : hashfn) (p : pkg) : pkg * res unit :=
  match pkg_update_hash sha p None with
  | (p', Ok _) => (pkg_write_header p', Ok tt)
  | (p', Err e) => (p', Err e)
  | (p', UB) => (p', UB)
  | (p', Stuck) => (p', Stuck)
  end.

(* BPAK_PART_ALIGN padding, lib/pkg_create.c:236-239 = 324-327 *)
Definition pad_for (n : Z) : Z := if n mod PART_ALIGN =? 0 then 0 else PART_ALIGN - n mod PART_ALIGN.

(* lib/pkg_create.c:231-239: the slot keeps its transport_size and pad *)
Definition fill_part (h : header) (i : nat) (id size off pad flags : Z) : header :=
  match nth_error (h_parts h) i with
  | None => h
  | Some q => with_parts h (list_upd i (mkPart id size off (p_transport_size q) pad flags (p_pad q)) (h_parts h))
  end.

(* ---- lib/pkg_create.c:257-264 ---- *)
(* [data] is what is left of the input file *)
Fixpoint copy_in_loop (fuel : nat) (f : bytes) (pos : Z) (data : bytes) (left : Z) : res (bytes * Z) :=
  if left =? 0 then Ok (f, pos)
  else match fuel with
  | O => Stuck
  | S k =>
      let b := ztake CHUNK data in
      copy_in_loop k (fwrite_at f pos b) (pos + zlen b) (zdrop CHUNK data) (u64 (left - zlen b))
  end.

(* lib/pkg_create.c:200-291 with the input file's content as [data] *)
Definition pkg_add_file (sha : hashfn) (p : pkg) (data name : bytes) (flags : Z) : pkg * res unit :=
  let h := pk_header p in
  let off := append_offset h in
  match add_part h (bpak_id name) with
  | (h1, Ok i) =>
      let pad := pad_for (zlen data) in
      let h2 := fill_part h1 i (bpak_id name) (zlen data) off pad flags in
      if s64 off <? 0 then (mkPkg h2 (pk_file p), Err E_SEEK_ERROR)
      else
        match copy_in_loop (Z.to_nat (zlen data / CHUNK + 1)) (pk_file p) off data (zlen data) with
        | Ok (f1, pos) => hash_and_write sha (mkPkg h2 (fwrite_at f1 pos (zeros pad)))
        | Err e => (mkPkg h2 (pk_file p), Err e)
        | UB => (mkPkg h2 (pk_file p), UB)
        | Stuck => (mkPkg h2 (pk_file p), Stuck)
        end
  | (h1, Err e) => (mkPkg h1 (pk_file p), Err e)
  | (h1, UB) => (mkPkg h1 (pk_file p), UB)
  | (h1, Stuck) => (mkPkg h1 (pk_file p), Stuck)
  end.

(* lib/pkg_create.c:293-365; [key] is the DER encoding of the loaded public
   key.  The fwrite at :345 reads pad_bytes bytes from a one-byte variable *)
Definition pkg_add_key (sha : hashfn) (p : pkg) (key name : bytes) (flags : Z) : pkg * res unit :=
  let h := pk_header p in
  let off := append_offset h in
  match add_part h (bpak_id name) with
  | (h1, Ok i) =>
      let pad := pad_for (zlen key) in
      let h2 := fill_part h1 i (bpak_id name) (zlen key) off pad flags in
      if s64 off <? 0 then (mkPkg h2 (pk_file p), Err E_SEEK_ERROR)
      else
        let f1 := fwrite_at (pk_file p) off key in
        if pad >? 1 then (mkPkg h2 f1, UB)
        else hash_and_write sha (mkPkg h2 (fwrite_at f1 (off + zlen key) (zeros pad)))
  | (h1, Err e) => (mkPkg h1 (pk_file p), Err e)
  | (h1, UB) => (mkPkg h1 (pk_file p), UB)
  | (h1, Stuck) => (mkPkg h1 (pk_file p), Stuck)
  end.

(* ---- lib/pkg.c:413-480 ---- *)
(* :452-472; output so far and result *)
Fixpoint copy_out_loop (fuel : nat) (f : bytes) (pos left : Z) (out : bytes) : bytes * res unit :=
  if left =? 0 then (out, Ok tt)
  else match fuel with
  | O => (out, Stuck)
  | S k =>
      let n := if left >? CHUNK then CHUNK else left in
      let b := fread_at f pos n in
      if zlen b =? n then copy_out_loop k f (pos + n) (left - n) (out ++ b)
      else (out, Err E_READ_ERROR)
  end.
(* content of the output file (None: not created) and result *)
Definition pkg_extract_file (p : pkg) (id : Z) : option bytes * res unit :=
  match get_part (pk_header p) id with
  | Ok i =>
      match nth_error (h_parts (pk_header p)) i with
      | None => (None, UB)
      | Some q =>
          let off := part_offset (pk_header p) q in
          if off <? 0 then (None, Err E_SEEK_ERROR)
          else
            let left := u64 (part_size q - p_pad_bytes q) in
            let (out, r) := copy_out_loop (Z.to_nat (left / CHUNK + 1)) (pk_file p) off left [] in
            (Some out, r)
      end
  | Err e => (None, Err e)
  | UB => (None, UB)
  | Stuck => (None, Stuck)
  end.

(* ---- lib/pkg.c:516-522 and 606-612 ---- *)
(* the meta pointer is an index; "meta--; meta++" stays on the same slot.
   [Stuck] at 100 steps: with 32 slots at most 64 steps can make progress *)
Fixpoint remove_meta_loop (sel : metah -> bool) (fuel : nat) (i : nat) (h : header) : res header :=
  match fuel with
  | O => Stuck
  | S k =>
      if (i =? MAX_META)%nat then Ok h
      else match nth_error (h_meta h) i with
      | None => UB
      | Some m =>
          if sel m then do h' <- del_meta h i; remove_meta_loop sel k i h'
          else remove_meta_loop sel k (S i) h
      end
  end.

(* ---- lib/pkg.c:506-512 ---- *)
Fixpoint shift_offsets (psize : Z) (l : list parth) (acc : Z) : list parth * Z :=
  match l with
  | [] => ([], acc)
  | q :: r =>
      if p_id q =? 0 then (q :: r, acc)
      else
        let (r', acc') := shift_offsets psize r (u64 (acc + part_size q)) in
        (mkPart (p_id q) (p_size q) (u64 (p_offset q - psize)) (p_transport_size q) (p_pad_bytes q)
           (p_flags q) (p_pad q) :: r', acc')
  end.

(* ---- lib/pkg.c:532-562 ---- *)
(* every read asks for a whole buffer; a short count is only an error when
   ferror() says so, which reading past the end does not set *)
Fixpoint move_down_loop (fuel : nat) (f : bytes) (rd wr left : Z) : res bytes :=
  if left =? 0 then Ok f
  else match fuel with
  | O => Stuck
  | S k =>
      let b := fread_at f rd CHUNK in
      move_down_loop k (fwrite_at f wr b) (rd + zlen b) (wr + zlen b) (u64 (left - zlen b))
  end.

(* ftruncate: cuts or zero-extends *)
Definition ftruncate (f : bytes) (n : Z) : bytes := ztake n f ++ zeros (n - zlen f).

(* lib/pkg.c:578-585 *)
Fixpoint used_size (acc : Z) (l : list parth) : Z :=
  match l with
  | [] => acc
  | q :: r => if p_id q =? 0 then acc else used_size (u64 (acc + part_size q)) r
  end.

(* lib/pkg.c:482-594 *)
Definition pkg_delete_part (sha : hashfn) (p : pkg) (id : Z) (remove_meta : bool) : pkg * res unit :=
  let h := pk_header p in
  match get_part h id with
  | Ok i =>
      match nth_error (h_parts h) i with
      | None => (p, UB)
      | Some q =>
          let off := u64 (part_offset h q) in
          let psize := part_size q in
          match del_part h i with
          | Ok h1 =>
              let (tail, todo) := shift_offsets psize (skipn i (h_parts h1)) 0 in
              let h2 := with_parts h1 (firstn i (h_parts h1) ++ tail) in
              match (if remove_meta then remove_meta_loop (fun m => m_ref m =? id) 100 0 h2 else Ok h2) with
              | Ok h3 =>
                  match move_down_loop (Z.to_nat (todo / CHUNK + 2)) (pk_file p) (off + psize) off todo with
                  | Ok f1 =>
                      match hash_and_write sha (mkPkg h3 f1) with
                      | (p', Ok _) =>
                          (mkPkg (pk_header p') (ftruncate (pk_file p') (used_size HDR_SIZE (h_parts h3))), Ok tt)
                      | x => x
                      end
                  | Err e => (mkPkg h3 (pk_file p), Err e)
                  | UB => (mkPkg h3 (pk_file p), UB)
                  | Stuck => (mkPkg h3 (pk_file p), Stuck)
                  end
              | Err e => (mkPkg h2 (pk_file p), Err e)
              | UB => (mkPkg h2 (pk_file p), UB)
              | Stuck => (mkPkg h2 (pk_file p), Stuck)
              end
          | _ => (p, UB)
          end
      end
  | Err e => (p, Err e)
  | UB => (p, UB)
  | Stuck => (p, Stuck)
  end.

(* lib/pkg.c:596-636 *)
Definition pkg_delete_all_parts (sha : hashfn) (p : pkg) (remove_meta : bool) : pkg * res unit :=
  let h1 := with_parts (pk_header p) (repeat zero_part MAX_PARTS) in
  match (if remove_meta then remove_meta_loop (fun m => negb (m_ref m =? 0)) 100 0 h1 else Ok h1) with
  | Ok h2 =>
      match hash_and_write sha (mkPkg h2 (pk_file p)) with
      | (p', Ok _) => (mkPkg (pk_header p') (ftruncate (pk_file p') HDR_SIZE), Ok tt)
      | x => x
      end
  | Err e => (mkPkg h1 (pk_file p), Err e)
  | UB => (mkPkg h1 (pk_file p), UB)
  | Stuck => (mkPkg h1 (pk_file p), Stuck)
  end.

(* ---- lib/pkg_create.c:39-196 ---- *)
(* :101-111: the input in chunks of 4096 bytes *)
Fixpoint chunks_of (fuel : nat) (data : bytes) : list bytes :=
  match fuel with
  | O => []
  | S k => match data with [] => [] | _ => ztake CHUNK data :: chunks_of k (zdrop CHUNK data) end
  end.
(* :62-118; [salt] is the output of random().  bpak_merkle_init's return value
   is ignored (:83, :100); on failure the context it leaves is used *)
Definition build_tree (sha : hashfn) (data salt : bytes) : res (bytes * bytes) :=
  do msz <- merkle_compute_size (zlen data);
  let buf := zeros msz in
  let '(c, r) := merkle_init mem_io buf (zlen data) salt 0 true in
  do s0 <- match r with Ok s => Ok s | Err _ => Ok buf | UB => UB | Stuck => Stuck end;
  do x <- write_chunks sha mem_io c s0 (chunks_of (length data) data);
  merkle_finish sha mem_io (fst x) (snd x).
(* :130-140 and 142-152 *)
Definition add_meta_bytes (h : header) (id ref : Z) (v : bytes) : header * res unit :=
  match add_meta h id ref (zlen v) with
  | (h1, Ok i) => match meta_write h1 i 0 v with Ok h2 => (h2, Ok tt) | Err e => (h1, Err e) | UB => (h1, UB) | Stuck => (h1, Stuck) end
  | (h1, Err e) => (h1, Err e)
  | (h1, UB) => (h1, UB)
  | (h1, Stuck) => (h1, Stuck)
  end.
Definition pkg_add_file_with_merkle_tree (sha : hashfn) (p : pkg) (data name salt : bytes) (flags : Z)
    : pkg * res unit :=
  match pkg_add_file sha p data name flags with
  | (p1, Ok _) =>
      match build_tree sha data salt with
      | Ok (tree, root) =>
          let h1 := pk_header p1 in
          let off := append_offset h1 in
          match add_meta_bytes h1 ID_MERKLE_SALT (bpak_id name) salt with
          | (h2, Ok _) =>
              match add_meta_bytes h2 ID_MERKLE_ROOT_HASH (bpak_id name) root with
              | (h3, Ok _) =>
                  let tid := part_name_to_hash_tree_id name in
                  match add_part h3 tid with
                  | (h4, Ok i) =>
                      let h5 := fill_part h4 i tid (zlen tree) off 0 flags in
                      if s64 off <? 0 then (mkPkg h5 (pk_file p1), Err (-1))
                      else hash_and_write sha (mkPkg h5 (fwrite_at (pk_file p1) off tree))
                  | (h4, Err e) => (mkPkg h4 (pk_file p1), Err e)
                  | (h4, UB) => (mkPkg h4 (pk_file p1), UB)
                  | (h4, Stuck) => (mkPkg h4 (pk_file p1), Stuck)
                  end
              | (h3, Err e) => (mkPkg h3 (pk_file p1), Err e)
              | (h3, UB) => (mkPkg h3 (pk_file p1), UB)
              | (h3, Stuck) => (mkPkg h3 (pk_file p1), Stuck)
              end
          | (h2, Err e) => (mkPkg h2 (pk_file p1), Err e)
          | (h2, UB) => (mkPkg h2 (pk_file p1), UB)
          | (h2, Stuck) => (mkPkg h2 (pk_file p1), Stuck)
          end
      | Err e => (p1, Err e)
      | UB => (p1, UB)
      | Stuck => (p1, Stuck)
      end
  | x => x
  end.
