(* VerifySpec.v -- which bytes a package's hashes cover *)
From Verif Require Import Base HeaderModel HeaderSpec HashModel.

(* the used slots of a part table, in order *)
Definition used (slots : list parth) : list parth := filter (fun p => negb (p_id p =? 0)) slots.
Definition excluded (p : parth) : bool := Z.testbit (p_flags p) 0.
(* the parts [l], stored back to back from [pos]: each with its start *)
Fixpoint placed (pos : Z) (l : list parth) : list (parth * Z) :=
  match l with
  | [] => []
  | p :: r => (p, pos) :: placed (pos + stored_size p) r
  end.
(* the parts that are hashed and where they start *)
Definition hashed_parts (pos : Z) (slots : list parth) : list (parth * Z) :=
  filter (fun x => negb (excluded (fst x))) (placed pos (used slots)).
(* concatenation of their stored bytes (padding included) *)
Definition hashed_payload (f : bytes) (pos : Z) (slots : list parth) : bytes :=
  concat (map (fun x => slice (snd x) (stored_size (fst x)) f) (hashed_parts pos slots)).
(* the file contains all of them *)
Definition payload_present (f : bytes) (pos : Z) (slots : list parth) : Prop :=
  Forall (fun x => stored_size (fst x) = 0 \/ snd x + stored_size (fst x) <= zlen f) (hashed_parts pos slots).

(* the header with signature and signature size zeroed *)
Definition unsigned (h : header) : header := with_signature h (zeros 512) 0.

Definition hash_collision (sha : hashfn) : Prop := exists k a b, a <> b /\ sha k a = sha k b.
