(* LowTac.v -- machinery for C83: every code the model can return is a
   negative number the exit status of a process can hold. *)
From Verif Require Export Base.

Definition low {A} (r : res A) : Prop := match r with Err x => -30 <= x <= -1 | _ => True end.

Lemma low_ok : forall A (a : A), low (Ok a). Proof. exact (fun _ _ => I). Qed.
Lemma low_ub : forall A, low (@UB A). Proof. exact (fun _ => I). Qed.
Lemma low_stuck : forall A, low (@Stuck A). Proof. exact (fun _ => I). Qed.
Lemma low_err : forall A x, (-30 <=? x) && (x <=? -1) = true -> low (@Err A x).
Proof. intros A x H. apply andb_prop in H. unfold low. lia. Qed.
Lemma low_move : forall A B x, low (@Err A x) -> low (@Err B x).
Proof. exact (fun _ _ _ H => H). Qed.
Lemma low_bind : forall A B (r : res A) (k : A -> res B), low r -> (forall a, low (k a)) -> low (bind r k).
Proof. intros A B [a | x | |] k H K; cbn [bind]; [apply K | exact H | exact I | exact I]. Qed.

Create HintDb low discriminated.
#[export] Hint Resolve low_ok low_ub low_stuck : low.

(* one step *)
Ltac low1 :=
  cbn beta iota delta [fst snd];
  match goal with
  | |- low (Ok _) => exact I
  | |- low UB => exact I
  | |- low Stuck => exact I
  | |- low (Err _) => first [assumption | (eapply low_move; eassumption) | (apply low_err; reflexivity)]
  | |- low (bind _ _) => apply low_bind; [| intros]
  | |- low (snd (let (a, b) := ?x in _)) => low_case x
  | |- low (let (a, b) := ?x in _) => low_case x
  | |- low (match ?x with _ => _ end) => low_case x
  | |- low (snd (match ?x with _ => _ end)) => low_case x
  | |- low (fst (match ?x with _ => _ end)) => low_case x
  | |- low (snd (fst (match ?x with _ => _ end))) => low_case x
  | |- low _ => solve [assumption | auto 3 with low]
  | |- forall _, _ => intro
  end
with low_case x :=
  first
  [ match x with context [match ?y with _ => _ end] =>
      lazymatch type of y with
      | _ => low_case y
      end
    end
  | match type of x with
    | res _ => let H := fresh "Hlow" in assert (H : low x) by (repeat low1); destruct x
    | (_ * res _)%type => let H := fresh "Hlow" in assert (H : low (snd x)) by (repeat low1); let a := fresh in let b := fresh in destruct x as [a b]; cbn [snd] in H
    | _ => destruct x
    end ].
Ltac lows := repeat low1.
(* put everything but [x] back into the goal *)
Ltac gens x := repeat match goal with H : _ |- _ => tryif constr_eq H x then fail else revert H end.
#[export] Hint Extern 1 (low (Err _)) => (apply low_err; reflexivity) : low.
