(* PkgSpec.v -- what a package file is, independently of lib/pkg.c *)
From Verif Require Import Base HeaderModel HeaderSpec HashModel VerifyModel VerifySpec.

(* [holds p es]: the part table of [p] lists the parts [map fst es] in its
   first slots and is zero after them, and the file is the header followed by
   the parts' stored bytes, back to back, and nothing else. *)
Record holds (p : pkg) (es : list (parth * bytes)) : Prop := {
  ho_wf : wf_header (pk_header p);
  ho_count : (length es <= 32)%nat;
  ho_table : h_parts (pk_header p) = map fst es ++ repeat zero_part (32 - length es);
  ho_nonzero : Forall (fun e : parth * bytes => p_id (fst e) <> 0) es;
  ho_distinct : NoDup (map (fun e : parth * bytes => p_id (fst e)) es);
  ho_sizes : Forall (fun e : parth * bytes => zlen (snd e) = stored_size (fst e)) es;
  ho_file : pk_file p = enc_header (pk_header p) ++ concat (map snd es);
  ho_bound : zlen (pk_file p) < 2^63 }.

(* no part is transport encoded *)
Definition plain (es : list (parth * bytes)) : Prop :=
  Forall (fun e => Z.testbit (p_flags (fst e)) 1 = false) es.
(* the offset field of every part is its real position in the file *)
Fixpoint offsets_from (pos : Z) (es : list (parth * bytes)) : Prop :=
  match es with
  | [] => True
  | e :: r => p_offset (fst e) = pos /\ offsets_from (pos + zlen (snd e)) r
  end.
(* bytes needed to reach a multiple of 512 *)
Definition padding (n : Z) : Z := (- n) mod 512.
(* the stored bytes that the payload hash covers *)
Definition covered (es : list (parth * bytes)) : bytes :=
  concat (map snd (filter (fun e : parth * bytes => negb (excluded (fst e))) es)).
(* the payload hash field of the header is the digest of the covered bytes *)
Definition hash_current (sha : hashfn) (p : pkg) (es : list (parth * bytes)) : Prop :=
  let h := pk_header p in
  slice 0 (digest_len (h_hash_kind h)) (h_payload_hash h) = sha (h_hash_kind h) (covered es).
(* the two headers agree except for the part table and the payload hash *)
Definition same_besides_parts (h h' : header) : Prop :=
  h' = HeaderModel.with_payload_hash (with_parts h (h_parts h')) (h_payload_hash h').

(* metadata left by removing the selected entries one after the other with
   bpak_del_meta: every removal cuts the values behind it to the removed
   entry's (8-aligned) length (see C06) *)
Fixpoint purge (sel : mentry -> bool) (cut : Z) (live : list mentry) : list mentry :=
  match live with
  | [] => []
  | e :: r =>
      if sel e then purge sel (Z.min cut (align8 (zlen (e_val e)))) r
      else mkEntry (e_id e) (e_ref e) (del_value cut (e_val e)) :: purge sel cut r
  end.
(* unused metadata slots carry no part reference *)
Definition no_ghost_refs (slots : list metah) : Prop := Forall (fun m => m_id m = 0 -> m_ref m = 0) slots.

(* ---- packages as lists of files -------------------------------------- *)
Record fentry := mkFile { f_id : Z; f_flags : Z; f_data : bytes }.
Definition file_stored (f : fentry) : bytes := f_data f ++ zeros (padding (zlen (f_data f))).
Inductive pkg_op :=
| OAdd (name data : bytes) (flags : Z)      (* bpak_pkg_add_file *)
| ODel (id : Z) (remove_meta : bool)        (* bpak_pkg_delete_part *)
| ODelAll (remove_meta : bool)              (* bpak_pkg_delete_all_parts *)
| OExtract (id : Z).                        (* bpak_pkg_extract_file *)
(* reference semantics of a package: an ordered list of at most 32 files.
   Second component: content of the extracted file; third: return value. *)
Definition spec_pkg_op (idof : bytes -> Z) (fs : list fentry) (o : pkg_op)
    : list fentry * option bytes * res unit :=
  match o with
  | OAdd name data flags =>
      if existsb (fun f => f_id f =? idof name) fs then (fs, None, Err E_EXISTS)
      else if (32 <=? length fs)%nat then (fs, None, Err E_NO_SPACE_LEFT)
      else (fs ++ [mkFile (idof name) flags data], None, Ok tt)
  | ODel id _ =>
      if existsb (fun f => f_id f =? id) fs
      then (filter (fun f => negb (f_id f =? id)) fs, None, Ok tt)
      else (fs, None, Err E_NOT_FOUND)
  | ODelAll _ => ([], None, Ok tt)
  | OExtract id =>
      match find (fun f => f_id f =? id) fs with
      | Some f => (fs, Some (f_data f), Ok tt)
      | None => (fs, None, Err E_NOT_FOUND)
      end
  end.
Fixpoint spec_pkg_ops (idof : bytes -> Z) (fs : list fentry) (os : list pkg_op)
    : list fentry * list (option bytes * res unit) :=
  match os with
  | [] => (fs, [])
  | o :: r =>
      let '(fs1, x, y) := spec_pkg_op idof fs o in
      let (fs2, xs) := spec_pkg_ops idof fs1 r in (fs2, (x, y) :: xs)
  end.
(* a package whose file is exactly these files *)
Definition pkg_files (p : pkg) (fs : list fentry) : Prop :=
  exists es, holds p es /\ offsets_from 4096 es /\
    Forall2 (fun f e => snd e = file_stored f /\
               p_id (fst e) = f_id f /\ p_flags (fst e) = f_flags f /\
               p_size (fst e) = zlen (f_data f) /\ p_pad_bytes (fst e) = padding (zlen (f_data f))) fs es.
(* ... except also for the metadata *)
Definition same_besides_parts_meta (h h' : header) : Prop :=
  h' = HeaderModel.with_payload_hash (with_metadata (with_meta (with_parts h (h_parts h')) (h_meta h')) (h_metadata h'))
         (h_payload_hash h').
