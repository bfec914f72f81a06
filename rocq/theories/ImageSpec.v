(* ImageSpec.v -- the bytes of a package file, as a function of its contents *)
From Verif Require Import Base PkgSpec PkgHistory HashModel HeaderSpec CliSpec.
Local Open Scope Z_scope.

Definition zero_pad (n : Z) (b : bytes) : bytes := b ++ zeros (n - zlen b).
(* one row of 16 bytes per metadata entry *)
Fixpoint meta_rows (off : Z) (ms : list mentry) : bytes :=
  match ms with
  | [] => []
  | e :: r => le 4 (e_id e) ++ le 2 (zlen (e_val e)) ++ le 2 off ++ le 4 (e_ref e) ++ zeros 4
              ++ meta_rows (off + align8 (zlen (e_val e))) r
  end.
(* one row of 32 bytes per file *)
Fixpoint part_rows (pos : Z) (fs : list fentry) : bytes :=
  match fs with
  | [] => []
  | f :: r => le 4 (f_id f) ++ le 8 (zlen (f_data f)) ++ le 8 pos ++ zeros 8 ++ le 2 (padding (zlen (f_data f))) ++ [f_flags f] ++ [0]
              ++ part_rows (pos + zlen (file_stored f)) r
  end.
Definition meta_values (ms : list mentry) : bytes := concat (map (fun e => zero_pad (align8 (zlen (e_val e))) (e_val e)) ms).
(* header of 4096 bytes, then the files, each padded to a multiple of 512 *)
Definition image (sha : hashfn) (w : world) : bytes :=
  le 4 1112555826 ++ zeros 4 ++
  zero_pad 512 (meta_rows 0 (w_metas w)) ++
  zero_pad 1024 (part_rows 4096 (w_files w)) ++
  zero_pad 1920 (meta_values (w_metas w)) ++
  [w_hash w] ++ [w_sign w] ++ le 2 512 ++
  zero_pad 64 (sha (w_hash w) (files_covered (w_files w))) ++
  le 4 (w_key w) ++ le 4 (w_keystore w) ++ zeros 42 ++
  zero_pad 512 (w_sig w) ++ le 2 (zlen (w_sig w)) ++
  concat (map file_stored (w_files w)).

(* commands that do not remove metadata: deleted values are not erased *)
Definition tidy (w : world) (c : cmd) : bool :=
  match c with
  | CDelete part keep => keep || negb (existsb (fun e => e_ref e =? arg_id part) (w_metas w))
  | CDeleteAll keep => keep || negb (existsb (fun e => negb (e_ref e =? 0)) (w_metas w))
  | CSetMeta name s None =>
      match find (has_key (CrcModel.bpak_id name) 0) (w_metas w) with
      | Some e => zlen s + 1 <=? zlen (e_val e)
      | None => true
      end
  | _ => true
  end.
