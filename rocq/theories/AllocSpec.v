(* AllocSpec.v -- what it means for a call to look after what it acquires.
   "For every [o] and [s]": whatever the inputs and failures, whatever is held
   already. *)
From Verif Require Import AllocModel.

(* what is held has different numbers, and later numbers are new *)
Definition sound (s : state) : Prop := NoDup (map fst (st_held s)) /\ Forall (fun x => fst x < st_next s) (st_held s).
(* nothing goes wrong, and what is held afterwards is in [post] *)
Definition ends {A} (m : M A) (pre : held) (post : A -> held -> Prop) : Prop :=
  forall o s, sound s -> st_held s = pre -> exists a s', m o s = Some (a, s') /\ sound s' /\ post a (st_held s').
(* everything acquired is released, once, by the right function *)
Definition balanced {A} (m : M A) : Prop := forall h, ends m h (fun _ h' => h' = h).
(* the same for a call on objects that are held *)
Definition holds (k : kind) (p : ptr) (h : held) : Prop := exists i, p = Some i /\ lookup i h = Some k.
Definition balanced_on {A} (m : ptr -> M A) : Prop := forall h p, holds KFile p h -> ends (m p) h (fun _ h' => h' = h).
(* on success the caller gets something new to release, on failure nothing *)
Definition gives (k : kind) (m : M (nat * ptr)) : Prop :=
  forall h, ends m h (fun x h' => if fst x =? 0 then exists i, snd x = Some i /\ h' = (i, k) :: h else h' = h).
(* something goes wrong: a NULL pointer or a released object is used, or
   something is released by the wrong function *)
Definition breaks {A} (m : M A) : Prop := exists o, m o (mkState 0 [] 0) = None.
(* starting with nothing, [l] is still held at the end *)
Definition leaks {A} (m : M A) (l : list kind) : Prop :=
  l <> [] /\ exists o a s', m o (mkState 0 [] 0) = Some (a, s') /\ map snd (st_held s') = l.
