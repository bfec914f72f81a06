(* HeaderOps.v -- runs of client operations against the model of lib/bpak.c
   (definitions only). *)
From Verif Require Import Base HeaderModel HeaderSpec.

(* one client call on the part table, lib/bpak.c:109-151 *)
Definition run_part (h : header) (o : part_op) : header * res unit :=
  match o with
  | PAdd id => let (h1, x) := add_part h id in
               (h1, match x with Ok _ => Ok tt | Err e => Err e | UB => UB | Stuck => Stuck end)
  | PSet id p =>
      match get_part h id with
      | Ok i => (with_parts h (list_upd i (set_p_id p id) (h_parts h)), Ok tt)
      | Err e => (h, Err e) | UB => (h, UB) | Stuck => (h, Stuck)
      end
  | PDel id =>
      match get_part h id with
      | Ok i => match del_part h i with
                | Ok h1 => (h1, Ok tt)
                | Err e => (h, Err e) | UB => (h, UB) | Stuck => (h, Stuck)
                end
      | Err e => (h, Err e) | UB => (h, UB) | Stuck => (h, Stuck)
      end
  end.
Fixpoint run_parts (h : header) (os : list part_op) : header * list (res unit) :=
  match os with
  | [] => (h, [])
  | o :: r => let (h1, x) := run_part h o in
              let (h2, xs) := run_parts h1 r in (h2, x :: xs)
  end.

(* one client call on the metadata, lib/bpak.c:17-107.  For MWrite the client
   respects the size it asked for (k + length <= m->size). *)
Definition run_meta (h : header) (o : meta_op) : header * res unit :=
  match o with
  | MAdd id ref size =>
      let (h1, x) := add_meta h id ref size in
      (h1, match x with Ok _ => Ok tt | Err e => Err e | UB => UB | Stuck => Stuck end)
  | MWrite id ref k d =>
      match get_meta h id ref with
      | Ok i =>
          match nth_error (h_meta h) i with
          | Some m => if k + zlen d <=? m_size m
                      then match meta_write h i k d with
                           | Ok h1 => (h1, Ok tt)
                           | Err e => (h, Err e) | UB => (h, UB) | Stuck => (h, Stuck)
                           end
                      else (h, Err E_SIZE_ERROR)
          | None => (h, UB)
          end
      | Err e => (h, Err e) | UB => (h, UB) | Stuck => (h, Stuck)
      end
  | MDel id ref =>
      match get_meta h id ref with
      | Ok i => match del_meta h i with
                | Ok h1 => (h1, Ok tt)
                | Err e => (h, Err e) | UB => (h, UB) | Stuck => (h, Stuck)
                end
      | Err e => (h, Err e) | UB => (h, UB) | Stuck => (h, Stuck)
      end
  end.
Fixpoint run_metas (h : header) (os : list meta_op) : header * list (res unit) :=
  match os with
  | [] => (h, [])
  | o :: r => let (h1, x) := run_meta h o in
              let (h2, xs) := run_metas h1 r in (h2, x :: xs)
  end.
Definition meta_op_ok (o : meta_op) : Prop :=
  match o with
  | MAdd id ref size => id <> 0 /\ 0 <= size < 65536
  | MWrite id ref k d => id <> 0 /\ 0 <= k
  | MDel id ref => id <> 0
  end.
