(* RefSpec.v -- what it means for reference counts to be right. *)
From Verif Require Import RefModel.

Definition cnt (l : list id) (i : id) : nat := count_occ id_dec l i.
Arguments cnt : simpl never.
(* the references objects hold *)
Definition held (h : heap) : list id := flat_map (fun x => o_items (snd x)) h.
(* lists hold parts and metadata, these hold their package *)
Definition shape (k : okind) (items : list id) : Prop :=
  match k with
  | OPart | OMeta => exists p, items = [p] /\ fst p = OPackage
  | OList => Forall (fun j => fst j = OPart \/ fst j = OMeta) items
  | _ => items = []
  end.

Section Inv.
Variable fileP : fstate -> Prop.     (* what is known of the files *)
(* [roots]: the references held by the program's variables, by calls in
   progress, and those nobody will ever release.  Every object is there exactly
   as long as there are references to it, and its count is their number *)
Definition counted (h : heap) (next : nat) (roots : list id) : Prop :=
  NoDup (map fst h) /\
  forall i, match find i h with
            | Some x => o_refs x = cnt roots i + cnt (held h) i /\ 0 < o_refs x /\ snd i < next /\
                        shape (fst i) (o_items x) /\
                        (fst i = OPackage -> fileP (o_file x)) /\ (fst i <> OPackage -> o_file x = Closed)
            | None => cnt roots i + cnt (held h) i = 0
            end.
Definition ok (s : state) (lg : option id) (roots : list id) : Prop :=
  counted (st_heap s) (st_next s) roots /\ st_log s = lg.
Definition ends {A} (lg : option id) (m : M A) (roots : list id) (post : A -> list id -> Prop) : Prop :=
  forall o s, ok s lg roots -> exists a s' roots', m o s = Some (a, s') /\ ok s' lg roots' /\ post a roots'.
End Inv.
