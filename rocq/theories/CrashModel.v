(* CrashModel.v -- the file-modifying system calls of lib/pkg.c and
   lib/pkg_create.c, in program order.  Definitions only.
   stdio keeps the order of the bytes it writes and flushes on fseek(), so a
   process that is killed has handed a prefix of this sequence to the kernel,
   possibly cutting a write short. *)
From Verif Require Import Base HeaderModel CrcModel HashModel MerkleModel VerifyModel PkgModel.

Inductive fsop :=
| FsData (pos : Z) (b : bytes)   (* fwrite of part data *)
| FsHeader (b : bytes)           (* fwrite of the package header at offset 0, lib/pkg.c:175-191 *)
| FsTrunc (n : Z).               (* ftruncate, lib/pkg.c:587, 629 *)
Definition fs_apply (f : bytes) (o : fsop) : bytes :=
  match o with
  | FsData pos b => fwrite_at f pos b
  | FsHeader b => fwrite_at f 0 b
  | FsTrunc n => ftruncate f n
  end.
Definition fs_replay (f : bytes) (os : list fsop) : bytes := fold_left fs_apply os f.

(* lib/pkg_create.c:279-286, lib/pkg.c:566-576, 614-624: nothing is written
   unless the payload hash could be computed *)
Definition header_ops (sha : hashfn) (p : pkg) : list fsop :=
  match pkg_update_hash sha p None with
  | (p', Ok _) => [FsHeader (enc_header (pk_header p'))]
  | _ => []
  end.

(* lib/pkg_create.c:257-264 *)
Fixpoint copy_in_ops (fuel : nat) (pos : Z) (data : bytes) (left : Z) : list fsop :=
  if left =? 0 then []
  else match fuel with
  | O => []
  | S k =>
      let b := ztake CHUNK data in
      FsData pos b :: copy_in_ops k (pos + zlen b) (zdrop CHUNK data) (u64 (left - zlen b))
  end.

(* lib/pkg_create.c:200-291 *)
Definition add_file_ops (sha : hashfn) (p : pkg) (data name : bytes) (flags : Z) : list fsop :=
  let h := pk_header p in
  let off := append_offset h in
  match add_part h (bpak_id name) with
  | (h1, Ok i) =>
      let pad := pad_for (zlen data) in
      let h2 := fill_part h1 i (bpak_id name) (zlen data) off pad flags in
      if s64 off <? 0 then []
      else
        let ws := copy_in_ops (Z.to_nat (zlen data / CHUNK + 1)) off data (zlen data) ++
                  (if pad =? 0 then [] else [FsData (off + zlen data) (zeros pad)]) in
        ws ++ header_ops sha (mkPkg h2 (fs_replay (pk_file p) ws))
  | _ => []
  end.

(* lib/pkg.c:532-562 *)
Fixpoint move_down_ops (fuel : nat) (f : bytes) (rd wr left : Z) : list fsop :=
  if left =? 0 then []
  else match fuel with
  | O => []
  | S k =>
      let b := fread_at f rd CHUNK in
      FsData wr b :: move_down_ops k (fwrite_at f wr b) (rd + zlen b) (wr + zlen b) (u64 (left - zlen b))
  end.

(* lib/pkg.c:482-594 *)
Definition delete_part_ops (sha : hashfn) (p : pkg) (id : Z) (remove_meta : bool) : list fsop :=
  let h := pk_header p in
  match get_part h id with
  | Ok i =>
      match nth_error (h_parts h) i with
      | None => []
      | Some q =>
          let off := u64 (part_offset h q) in
          let psize := part_size q in
          match del_part h i with
          | Ok h1 =>
              let (tail, todo) := shift_offsets psize (skipn i (h_parts h1)) 0 in
              let h2 := with_parts h1 (firstn i (h_parts h1) ++ tail) in
              match (if remove_meta then remove_meta_loop (fun m => m_ref m =? id) 100 0 h2 else Ok h2) with
              | Ok h3 =>
                  let ws := move_down_ops (Z.to_nat (todo / CHUNK + 2)) (pk_file p) (off + psize) off todo in
                  match header_ops sha (mkPkg h3 (fs_replay (pk_file p) ws)) with
                  | [] => ws
                  | hs => ws ++ hs ++ [FsTrunc (used_size HDR_SIZE (h_parts h3))]
                  end
              | _ => []
              end
          | _ => []
          end
      end
  | _ => []
  end.

(* lib/pkg.c:596-636 *)
Definition delete_all_ops (sha : hashfn) (p : pkg) (remove_meta : bool) : list fsop :=
  let h1 := with_parts (pk_header p) (repeat zero_part MAX_PARTS) in
  match (if remove_meta then remove_meta_loop (fun m => negb (m_ref m =? 0)) 100 0 h1 else Ok h1) with
  | Ok h2 =>
      match header_ops sha (mkPkg h2 (pk_file p)) with
      | [] => []
      | hs => hs ++ [FsTrunc HDR_SIZE]
      end
  | _ => []
  end.
