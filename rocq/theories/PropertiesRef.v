(* PropertiesRef.v -- C85: Python objects live exactly as long as they are
   referenced. *)
From Verif Require Import RefModel RefSpec RefProofs RefCalls RefPrograms.

(* statements that stay clear of the known faults: opening a damaged file,
   add_meta with a str when the header cannot be written, a log function that
   is not kept in the variable [kept] *)
Definition harmless (kept : option var) (t : stmt) : Prop :=
  match t with
  | SLet x c => kept <> Some x /\
      match c with
      | CPackage _ Damaged => False
      | CAddMeta _ (Some _) true true => False
      | CSetLog (Some f) => kept = Some f
      | _ => True
      end
  | SCopy x _ | SDel x => kept <> Some x
  end.
Definition no_lists (t : stmt) : Prop := match t with SLet _ (CAll _ _) => False | _ => True end.
Definition no_close (t : stmt) : Prop := match t with SLet _ (CClose _) | SLet _ (CPackage _ NoFile) => False | _ => True end.
Definition here (i : id) (s : state) : Prop := find i (st_heap s) <> None.

Definition whole_file (f : fstate) : Prop := f <> Broken.
Lemma broken_not_whole : ~ whole_file Broken. Proof. intros H. now apply H. Qed.
Lemma open_whole : whole_file Open. Proof. discriminate. Qed.
Definition always_open (f : fstate) : Prop := f = Open.
Lemma broken_not_open : ~ always_open Broken. Proof. discriminate. Qed.
Definition any (j : id) : Prop := True.
Lemma any_string j : is_string j -> any j. Proof. easy. Qed.
Lemma harmless_fine k t : harmless k t -> fine whole_file any k t.
Proof.
  unfold fine. destruct t as [x c|x y|x]; cbn [harmless]; [|easy|easy]. intros [N H]. split; [exact N|].
  destruct c; cbn [fine_call]; try easy.
  - destruct r; [split; discriminate | split; [discriminate | intros _; discriminate] | easy].
  - destruct data as [d|]; [|easy]. destruct is_str, write_fails; first [easy | now left | now right].
Qed.
Lemma string_string j : is_string j -> is_string j. Proof. easy. Qed.
Lemma harmless_lists k t : harmless k t -> no_lists t -> fine whole_file is_string k t.
Proof.
  intros H NL. apply harmless_fine in H. destruct t as [x c|x y|x]; [|exact H|exact H]. destruct H as [N H]. split; [exact N|]. now destruct c.
Qed.
Lemma harmless_close k t : harmless k t -> no_close t -> fine always_open any k t.
Proof.
  unfold fine. destruct t as [x c|x y|x]; cbn [harmless no_close]; [|easy|easy]. intros [N H] NC. split; [exact N|].
  destruct c; cbn [fine_call]; try easy.
  - destruct r; [split; discriminate | easy | easy].
  - destruct data as [d|]; [|easy]. destruct is_str, write_fails; first [easy | now left | now right].
Qed.
Lemma both {A} (P Q R : A -> Prop) l : (forall x, P x -> Q x -> R x) -> Forall P l -> Forall Q l -> Forall R l.
Proof. intros H F G. rewrite Forall_forall in *. auto. Qed.

(* Programs: [p] until the log function is chosen, [q] afterwards; any calls in
   any order, whatever fails (the oracle [o]). *)
(* C85a: nothing is used after it was released, nothing is released twice; at
   every moment a variable's object is there, and so is what it refers to *)
Theorem C85_no_use_after_release_partial : forall kept p q, Forall (harmless None) p -> Forall (harmless kept) q -> forall o,
  (exists s, whole (p ++ q) o start = Some (tt, s)) /\
  exists e s, run_prog [] (p ++ q) o start = Some (e, s) /\
    forall x i, look x e = Some i -> exists y, find i (st_heap s) = Some y /\ (forall j, In j (o_items y) -> here j s) /\
      (fst i = OPart \/ fst i = OMeta -> exists pkg, o_items y = [pkg] /\ fst pkg = OPackage).
Proof.
  intros kept p q F G o. pose proof (Forall_impl _ (harmless_fine None) F) as F1. pose proof (Forall_impl _ (harmless_fine kept) G) as G1.
  pose proof (whole_ends whole_file broken_not_whole open_whole any any_string kept p q F1 G1 o) as (s0 & R0 & _). split; [now exists s0|].
  pose proof (two_phases whole_file broken_not_whole open_whole any any_string kept p q F1 G1 o) as (e & s & R & I).
  exists e, s. split; [exact R|]. intros x i E. destruct (inv_alive whole_file any kept s e I x i E) as (y & Y & S & J).
  exists y. split; [exact Y|]. split.
  - intros j K. destruct (J j K) as (z & Z & _). unfold here. congruence.
  - intros [D|D]; rewrite D in S; exact S.
Qed.
(* C85b: while a program has a package, a part or metadata, the package's file
   is open, whatever else it has dropped (unless it calls close) *)
Theorem C85_stays_open_partial : forall kept p q, Forall (harmless None) p -> Forall (harmless kept) q -> Forall no_close p -> Forall no_close q ->
  forall o, exists e s, run_prog [] (p ++ q) o start = Some (e, s) /\
    forall x i, look x e = Some i ->
      (fst i = OPackage -> exists y, find i (st_heap s) = Some y /\ o_file y = Open) /\
      (fst i = OPart \/ fst i = OMeta -> exists y pkg z, find i (st_heap s) = Some y /\ o_items y = [pkg] /\
        find pkg (st_heap s) = Some z /\ fst pkg = OPackage /\ o_file z = Open).
Proof.
  intros kept p q F G FC GC o. pose proof (both _ _ _ _ (harmless_close None) F FC) as F1. pose proof (both _ _ _ _ (harmless_close kept) G GC) as G1.
  pose proof (two_phases always_open broken_not_open eq_refl any any_string kept p q F1 G1 o) as (e & s & R & I).
  exists e, s. split; [exact R|]. intros x i E. destruct (inv_alive always_open any kept s e I x i E) as (y & Y & S & J). split.
  - intros D. exists y. split; [exact Y|]. destruct I as (lg & L & [[_ C] _] & _). specialize (C i). rewrite Y in C. now apply C.
  - intros D. assert (S2 : exists pkg, o_items y = [pkg] /\ fst pkg = OPackage) by (destruct D as [D|D]; rewrite D in S; exact S).
    destruct S2 as (pkg & It & K). destruct (J pkg) as (z & Z & _ & O); [rewrite It; now left|]. exists y, pkg, z. repeat (split; [assumption|]). exact (O K).
Qed.
(* C85c: what a program can no longer reach has been released (its files
   closed), but strings *)
Theorem C85_released_partial : forall kept p q, Forall (harmless None) p -> Forall (harmless kept) q -> Forall no_lists p -> Forall no_lists q ->
  forall o, (exists e s, run_prog [] (p ++ q) o start = Some (e, s) /\
               forall i, here i s -> fst i <> OString -> reach (st_heap s) (map snd e) i) /\
            (exists s, whole (p ++ q) o start = Some (tt, s) /\ forall i, here i s -> fst i = OString).
Proof.
  intros kept p q F G FL GL o. pose proof (both _ _ _ _ (harmless_lists None) F FL) as F1. pose proof (both _ _ _ _ (harmless_lists kept) G GL) as G1. split.
  - pose proof (two_phases whole_file broken_not_whole open_whole is_string string_string kept p q F1 G1 o) as (e & s & R & lg & L & O & S & _).
    exists e, s. split; [exact R|]. intros i H D. destruct (find i (st_heap s)) as [y|] eqn:Y; [|now destruct H].
    exact (reachable whole_file s lg (map snd e) L O S i y Y D).
  - pose proof (whole_ends whole_file broken_not_whole open_whole is_string string_string kept p q F1 G1 o) as (s & R & lg & L & O & S).
    exists s. split; [exact R|]. intros i H. destruct (find i (st_heap s)) as [y|] eqn:Y; [|now destruct H].
    destruct (fst i) eqn:D; try reflexivity.
    all: assert (X : reach (st_heap s) [] i) by (apply (reachable whole_file s lg [] L O S i y Y); congruence);
      exfalso; clear -X; induction X; [contradiction | assumption].
Qed.
(* C85d: with lists of parts or metadata, too, no list, function or encoded
   string is left at the end; only elements of lists and their packages *)
Lemma harmless_elements k t : harmless k t -> fine whole_file is_element k t.
Proof.
  intros H. apply harmless_fine in H. destruct t as [x c|x y|x]; [|exact H|exact H]. destruct H as [N H]. split; [exact N|].
  destruct c; cbn [fine_call] in *; auto.
Qed.
Lemma string_element j : is_string j -> is_element j. Proof. now left. Qed.
Theorem C85_lists_partial : forall kept p q, Forall (harmless None) p -> Forall (harmless kept) q ->
  forall o, exists s, whole (p ++ q) o start = Some (tt, s) /\
    forall i, here i s -> fst i = OString \/ fst i = OPart \/ fst i = OMeta \/ fst i = OPackage.
Proof.
  intros kept p q F G o. pose proof (Forall_impl _ (harmless_elements None) F) as F1. pose proof (Forall_impl _ (harmless_elements kept) G) as G1.
  pose proof (whole_ends whole_file broken_not_whole open_whole is_element string_element kept p q F1 G1 o) as (s & R & lg & L & O & S).
  exists s. split; [exact R|]. intros i H. destruct (find i (st_heap s)) as [y|] eqn:Y; [|now destruct H].
  pose proof (elements_left whole_file s lg L O S i y Y) as [[A|[A|A]]|A]; auto.
Qed.

(* what goes wrong; answers: 0 is success, or that nothing is logged *)
Definition answers (l : list nat) : nat -> nat := fun n => nth n l 0.
Definition leaves (p : list stmt) (l : list (okind * fstate)) : Prop :=
  exists o s, whole p o start = Some (tt, s) /\ map (fun x => (fst (fst x), o_file (snd x))) (st_heap s) = l.
Definition breaks (p : list stmt) : Prop := exists o, whole p o start = None.
Definition result (p : list stmt) (l : list nat) : option (list (okind * fstate)) :=
  match whole p (answers l) start with Some (_, s) => Some (map (fun x => (fst (fst x), o_file (snd x))) (st_heap s)) | None => None end.
Lemma result_leaves p l r : result p l = Some r -> leaves p r.
Proof.
  unfold result. intros H. destruct (whole p (answers l) start) as [[u s]|] eqn:E; [|discriminate]. injection H as <-. exists (answers l), s. destruct u. now split.
Qed.
Lemma result_breaks p l : result p l = None -> breaks p.
Proof. unfold result. intros H. exists (answers l). now destruct (whole p (answers l) start) as [[u s]|]. Qed.
Definition open_it : list stmt := [SLet 0 CString; SLet 1 (CPackage 0 Opened)].   (* p = Package("f", "r") *)
(* every path is kept *)
Theorem C85_path_refuted : leaves open_it [(OString, Closed)].
Proof. apply (result_leaves open_it []). vm_compute. reflexivity. Qed.
(* p.parts: its elements are never released, so the file is never closed *)
Definition ask_parts : list stmt := open_it ++ [SLet 2 (CAll true 1); SDel 2; SDel 1].
Theorem C85_lists_refuted : leaves ask_parts [(OPart, Closed); (OPackage, Open); (OString, Closed)].
Proof. apply (result_leaves ask_parts [0; 0; 0; 0; 1]). vm_compute. reflexivity. Qed.
(* set_log_func(f); del f; the next message calls an object that is gone *)
Definition drop_log : list stmt := [SLet 0 CFunction; SLet 3 (CSetLog (Some 0)); SDel 0] ++ [SLet 2 CString; SLet 1 (CPackage 2 Opened)].
Theorem C85_log_function_refuted : breaks drop_log.
Proof. apply (result_breaks drop_log [0; 1]). vm_compute. reflexivity. Qed.
(* p.add_meta(id, data = "text") on a package that cannot be written *)
Definition meta_text : list stmt := open_it ++ [SLet 2 CString; SLet 3 (CAddMeta 1 (Some 2) true true)].
Theorem C85_add_meta_refuted : breaks meta_text.
Proof. apply (result_breaks meta_text []). vm_compute. reflexivity. Qed.
(* Package(...) on a file that is no package *)
Definition open_bad : list stmt := [SLet 0 CString; SLet 1 (CPackage 0 Damaged)].
Theorem C85_damaged_refuted : breaks open_bad.
Proof. apply (result_breaks open_bad []). vm_compute. reflexivity. Qed.

(* non-vacuity: a program that logs, drops the package before its parts, and
   one that keeps a part from a list *)
Definition demo1 : list stmt := [SLet 9 CFunction].
Definition demo2 : list stmt := [SLet 8 (CSetLog (Some 9))] ++ open_it ++
  [SLet 2 CString; SLet 3 (CAdd 1 2); SLet 4 (CAddMeta 1 (Some 2) true false); SDel 1; SLet 5 (CChildOp 3); SCopy 6 3; SDel 3].
Example C85_instance :
  Forall (harmless None) demo1 /\ Forall (harmless (Some 9)) demo2 /\ Forall no_lists demo2 /\ Forall no_close demo2 /\
  leaves (demo1 ++ demo2) (repeat (OString, Closed) 3) /\
  (exists o e s i, run_prog [] (demo1 ++ demo2) o start = Some (e, s) /\ look 1 e = None /\ look 6 e = Some i /\ fst i = OPart) /\
  Forall (harmless None) (open_it ++ [SLet 2 (CAll true 1); SLet 3 (CItem 2 0); SDel 2; SDel 1]).
Proof.
  split; [repeat constructor; discriminate|]. split; [repeat constructor; discriminate|]. split; [repeat constructor|]. split; [repeat constructor|].
  split; [|split; [|repeat constructor; discriminate]].
  - apply (result_leaves (demo1 ++ demo2) [0; 1]). vm_compute. reflexivity.
  - exists (answers [0; 1]).
    assert (X : match run_prog [] (demo1 ++ demo2) (answers [0; 1]) start with
                | Some (e, s) => look 1 e = None /\ exists i, look 6 e = Some i /\ fst i = OPart
                | None => False end).
    { vm_compute. split; [reflexivity | eexists; split; reflexivity]. }
    destruct (run_prog [] (demo1 ++ demo2) (answers [0; 1]) start) as [[e s]|]; [|easy]. destruct X as (A & i & B & C). exists e, s, i. auto.
Qed.
