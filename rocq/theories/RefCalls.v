(* RefCalls.v -- every call leaves the counts right, and keeps only strings
   (lists of parts or metadata: also their elements) *)
From Verif Require Import RefModel RefSpec RefProofs.

Definition val (v : value) : list id := match v with Some i => [i] | None => [] end.
Ltac cn := intros; cbn [val app]; rewrite ?cnt_app, ?cnt_cons, ?cnt_nil; lia.
Definition is_string (j : id) : Prop := fst j = OString.
Definition is_element (j : id) : Prop := fst j = OString \/ fst j = OPart \/ fst j = OMeta.

Section P.
Variable fileP : fstate -> Prop.
Hypothesis fileP_whole : ~ fileP Broken.
Hypothesis fileP_open : fileP Open.
Notation ends := (ends fileP).
Variable lg : option id.
Variable leak : id -> Prop.
Hypothesis leak_string : forall j, is_string j -> leak j.

(* the caller gets the value; [L] stays behind *)
Definition gv (r : list id) (v : value) (r' : list id) : Prop :=
  exists L, (forall i, cnt r' i = cnt (val v) i + cnt L i + cnt r i) /\ Forall leak L.
Definition good (args : list id) (m : M value) : Prop :=
  forall r, incl args r -> (forall f, lg = Some f -> In f r) -> ends lg m r (gv r).

Lemma gv_none r : gv r None r.
Proof. exists []. split; [reflexivity | constructor]. Qed.
Lemma gv_some r i : gv r (Some i) (i :: r).
Proof. exists []. split; [cn | constructor]. Qed.
Lemma gv_trans r L r1 v r2 : (forall i, cnt r1 i = cnt L i + cnt r i) -> Forall leak L -> gv r1 v r2 -> gv r v r2.
Proof.
  intros E F (L2 & E2 & F2). exists (L2 ++ L). split; [|now apply Forall_app]. intros i. rewrite E2, E, cnt_app. lia.
Qed.
Lemma strings_leak l : Forall (fun j => fst j = OString) l -> Forall leak l.
Proof. intros F. eapply Forall_impl; [|exact F]. exact leak_string. Qed.
Lemma nothing_ends r : ends lg nothing r (gv r).
Proof. apply ends_ret, gv_none. Qed.
(* a library call *)
Lemma lib_then r (k : nat -> M value) : (forall f, lg = Some f -> In f r) ->
  (forall n r1, incl r r1 -> (forall f, lg = Some f -> In f r1) -> ends lg (k n) r1 (gv r1)) -> ends lg (bind library k) r (gv r).
Proof.
  intros I H. apply ends_bind, (ends_library fileP); [exact I|]. intros n l F _.
  eapply ends_mono; [apply H; [intros j J; apply in_or_app; now right | intros f E; apply in_or_app; right; auto]|].
  intros v r2 G. eapply gv_trans; [intros i; apply cnt_app | apply strings_leak, F | exact G].
Qed.
Lemma string_value r : ends lg (y <- new OString [] Closed ;; ret (Some y)) r (gv r).
Proof. apply ends_bind, ends_string. intros n. apply ends_ret, gv_some. Qed.
Lemma child_good k p : k = OPart \/ k = OMeta -> fst p = OPackage -> good [p] (child k p).
Proof.
  intros K P r I _. apply ends_step; [|apply nothing_ends]. apply ends_bind, ends_incref; [apply I; now left|].
  apply ends_bind. change (p :: r) with ([p] ++ r). apply ends_new.
  - destruct K as [-> | ->]; exists p; auto.
  - destruct K as [-> | ->]; discriminate.
  - reflexivity.
  - intros n. apply ends_ret, gv_some.
Qed.
(* an encoded string that is released before the rest *)
Lemma with_temp r (m : id -> M value) (k : nat -> M value) : (forall f, lg = Some f -> In f r) ->
  (forall n r1, incl r r1 -> (forall f, lg = Some f -> In f r1) -> ends lg (k n) r1 (gv r1)) ->
  ends lg (a <- new OTemp [] Closed ;; rc <- library ;; decref a ;; k rc) r (gv r).
Proof.
  intros I H. apply ends_bind, ends_temp. intros n. apply ends_bind, (ends_library fileP); [intros f E; right; auto|].
  intros m0 l F _. apply ends_bind. eapply ends_ext; [|apply (ends_decref fileP fileP_whole)].
  - intros i. rewrite cnt_app, (cnt_cons (OTemp, n)), (cnt_cons (OTemp, n) (l ++ r)), cnt_app. lia.
  - eapply ends_mono; [apply H; [intros j J; apply in_or_app; now right | intros f E; apply in_or_app; right; auto]|].
    intros v r2 G. eapply gv_trans; [intros i; apply cnt_app | apply strings_leak, F | exact G].
Qed.
Lemma path_call_good args path after : fst path = OString -> good args after -> good (path :: args) (path_call path after).
Proof.
  intros P G r I L. apply ends_bind, ends_incref; [apply I; now left|].
  assert (T : forall v r2, gv (path :: r) v r2 -> gv r v r2).
  { intros v r2. apply (gv_trans r [path]); [cn | repeat constructor; now apply leak_string]. }
  eapply ends_mono; [|exact T]. apply ends_step; [|apply nothing_ends].
  apply (with_temp (path :: r) (fun _ => nothing)); [intros f E; right; auto|]. intros n r1 I1 L1. destruct (n =? 0); [|apply nothing_ends].
  apply G; [|exact L1]. intros j J. apply I1. right. apply I. now right.
Qed.

Lemma make_package_good path r : fst path = OString -> r <> Damaged -> (r = NoFile -> fileP Closed) -> good [path] (make_package path r).
Proof.
  intros P D C. apply path_call_good; [exact P|]. intros r0 _ _. destruct r; [| |easy].
  - apply ends_bind. apply (ends_new fileP lg OPackage [] Open r0); [reflexivity | auto | congruence|]. intros n. apply ends_ret, gv_some.
  - apply ends_bind. apply (ends_new fileP lg OPackage [] Closed r0); [reflexivity | auto | reflexivity|]. intros n.
    apply ends_bind, (ends_decref fileP fileP_whole), nothing_ends.
Qed.
Lemma close_good p : fst p = OPackage -> fileP Closed -> good [p] (package_close p).
Proof.
  intros P C r I _ o s [K G]. destruct (counted_live fileP _ _ _ p K) as [x F]; [apply I; now left|].
  pose proof K as [_ K2]. specialize (K2 p). rewrite F in K2. destruct K2 as (C1 & C2 & C3 & C4 & C5 & C6).
  unfold package_close, bind, get. rewrite F. specialize (C5 P).
  assert (R : counted fileP (put p (mkObj (o_refs x) (o_items x) Closed) (st_heap s)) (st_next s) r).
  { apply (counted_put fileP _ _ r r p x); cbn; auto. }
  destruct (o_file x); [| | now destruct (fileP_whole C5)].
  - eexists _, _, r. split; [reflexivity|]. split; [split; [exact R | exact G] | apply gv_none].
  - eexists _, _, r. split; [reflexivity|]. split; [split; [exact R | exact G] | apply gv_none].
Qed.
Lemma key_good p path : fst path = OString -> good [p; path] (package_key_call p path).
Proof.
  intros P r I L. apply ends_bind, (ends_use fileP); [apply I; now left|]. apply (path_call_good [] path); [exact P| | |exact L].
  - intros r0 _ _. apply nothing_ends.
  - intros j J. apply I. now right.
Qed.
Lemma add_good p path : fst p = OPackage -> fst path = OString -> good [p; path] (package_add p path).
Proof.
  intros P S r I L. apply ends_bind, (ends_use fileP); [apply I; now left|]. apply (path_call_good [p] path); [exact S| | |exact L].
  - intros r0 I0 L0. apply ends_step; [apply child_good; auto | apply nothing_ends].
  - intros j [<-|J]; apply I; [right; now left | destruct J as [<-|[]]; now left].
Qed.
Lemma add_meta_good p d s w : fst p = OPackage -> w = false \/ s = false -> good (p :: match d with Some i => [i] | None => [] end) (package_add_meta p d s w).
Proof.
  intros P W r I L. apply ends_bind, (ends_use fileP); [apply I; now left|]. apply ends_bind.
  assert (T : ends lg (match d with Some d0 => use d0 | None => ret tt end) r (fun _ r' => r' = r)).
  { destruct d as [d|]; [apply (ends_use fileP); [apply I; right; now left | reflexivity] | now apply ends_ret]. }
  eapply ends_mono; [exact T|]. intros u r' ->. cbv zeta. destruct s.
  - destruct W as [->|]; [|discriminate]. apply ends_step; [|apply nothing_ends].
    apply ends_bind, ends_temp. intros n. apply ends_bind, (ends_use fileP); [now left|].
    apply ends_bind, (ends_library fileP); [intros f E; right; auto|]. intros rc l F _.
    assert (E : forall Q, ends lg Q (l ++ r) (gv (l ++ r)) -> ends lg (decref (OTemp, n) ;; Q) (l ++ (OTemp, n) :: r) (gv r)).
    { intros Q H. apply ends_bind. eapply ends_ext; [|apply (ends_decref fileP fileP_whole)].
      - intros i. rewrite cnt_app, (cnt_cons (OTemp, n)), (cnt_cons (OTemp, n) (l ++ r)), cnt_app. lia.
      - eapply ends_mono; [exact H|]. intros v r2. apply (gv_trans r l); [intros i; apply cnt_app | apply strings_leak, F]. }
    destruct (rc =? 0); [|apply E, nothing_ends]. apply E. apply lib_then; [intros f X; apply in_or_app; right; auto|].
    intros m r1 I1 L1. apply child_good; auto. intros j [<-|[]]. apply I1, in_or_app. right. apply I. now left.
  - apply ends_step; [|apply nothing_ends]. apply lib_then; [exact L|]. intros rc r1 I1 L1. destruct (rc =? 0).
    + apply ends_bind, ends_ret. apply lib_then; [exact L1|]. intros m r2 I2 L2. destruct w; [apply ends_bind, ends_ret, nothing_ends|].
      apply child_good; auto. intros j [<-|[]]. apply I2, I1, I. now left.
    + apply ends_bind, ends_ret, nothing_ends.
Qed.
Lemma get_good k p : k = OPart \/ k = OMeta -> fst p = OPackage -> good [p] (package_get k p).
Proof.
  intros K P r I L. apply ends_bind, (ends_use fileP); [apply I; now left|]. apply ends_step; [now apply child_good | apply nothing_ends].
Qed.
Lemma package_op_good p : good [p] (package_op p).
Proof.
  intros r I L. apply ends_bind, (ends_use fileP); [apply I; now left|]. apply lib_then; [exact L|]. intros n r1 _ _.
  apply ends_bind, ends_ask. intros m. destruct (m =? 0); [apply nothing_ends | apply string_value].
Qed.
Lemma transport_good p q x : good (p :: q :: match x with Some i => [i] | None => [] end) (transport p q x).
Proof.
  intros r I L. apply ends_bind, (ends_use fileP); [apply I; now left|]. apply ends_bind, (ends_use fileP); [apply I; right; now left|]. apply ends_bind.
  eapply ends_mono with (P := fun _ r' => r' = r).
  - destruct x as [i|]; [apply (ends_use fileP); [apply I; right; right; now left | reflexivity] | now apply ends_ret].
  - intros u r' ->. apply lib_then; [exact L|]. intros n r1 _ _. apply nothing_ends.
Qed.
Lemma child_op_good x : good [x] (child_op x).
Proof.
  intros r I L. apply ends_bind, (ends_use_all fileP); [apply I; now left|]. apply lib_then; [exact L|]. intros n r1 _ _.
  apply ends_bind, ends_ask. intros m. destruct (m =? 0); [apply nothing_ends | apply string_value].
Qed.
Lemma set_raw_good x d s : good [x; d] (meta_set_raw x d s).
Proof.
  intros r I L. apply ends_bind, (ends_use_all fileP); [apply I; now left|]. apply ends_bind, (ends_use fileP); [apply I; right; now left|].
  apply ends_step; [|apply nothing_ends]. destruct s.
  - apply ends_step; [|apply nothing_ends]. apply ends_bind, ends_temp. intros n.
    apply ends_step; [| apply ends_bind, (ends_decref fileP fileP_whole), nothing_ends].
    apply ends_bind, (ends_library fileP); [intros f E; right; auto|]. intros m l F _. apply ends_bind.
    eapply ends_ext; [|apply (ends_decref fileP fileP_whole)].
    + intros i. rewrite cnt_app, (cnt_cons (OTemp, n)), (cnt_cons (OTemp, n) (l ++ r)), cnt_app. lia.
    + apply ends_ret. exists l. split; [cn | apply strings_leak, F].
  - apply ends_step; [|apply nothing_ends]. apply lib_then; [exact L|]. intros n r1 _ _. apply nothing_ends.
Qed.
Lemma item_good l n : good [l] (list_item l n).
Proof.
  intros r I _ o s [K G]. destruct (counted_live fileP _ _ _ l K) as [x F]; [apply I; now left|].
  unfold list_item, bind at 1, get. rewrite F. destruct (nth_error (o_items x) n) as [i|] eqn:E; [|now apply nothing_ends].
  apply nth_error_In in E. destruct (counted_item fileP _ _ _ _ _ i K F E) as [y Y].
  assert (R : ok fileP (with_heap (put i (mkObj (S (o_refs y)) (o_items y) (o_file y)) (st_heap s)) s) lg (i :: r)).
  { split; [|exact G]. cbn. pose proof K as [_ C]. specialize (C i). rewrite Y in C. destruct C as (C1 & C2 & C3 & C4 & C5 & C6).
    apply (counted_put fileP _ _ r (i :: r) i y); cbn; try assumption; try lia; auto.
    - rewrite cnt_self. lia.
    - intros j D. rewrite cnt_cons. destruct (id_dec i j); [congruence | lia]. }
  unfold bind, incref, bind, get. rewrite Y. cbn. eexists _, _, _. split; [reflexivity|]. split; [exact R | apply gv_some].
Qed.

(* lists *)
Lemma append_good n k p l : (k = OPart \/ k = OMeta) -> fst p = OPackage -> fst l = OList -> (forall j, is_element j -> leak j) ->
  forall r, In p r -> ends lg (append_n n k p l) (l :: r) (gv r).
Proof.
  intros K P L LE. induction n as [|n IH]; intros r I; cbn [append_n]; [apply ends_ret, gv_some|].
  apply ends_bind. apply ends_step.
  2:{ apply ends_ret. apply ends_bind, (ends_decref fileP fileP_whole), nothing_ends. }
  apply ends_bind, ends_incref; [now right|]. apply ends_bind. change (p :: l :: r) with ([p] ++ l :: r). apply ends_new.
  { destruct K as [-> | ->]; exists p; auto. }
  { destruct K as [-> | ->]; discriminate. }
  { reflexivity. }
  intros m. apply ends_ret. set (x := (k, m)).
  assert (X : leak x). { apply LE. unfold is_element, x. cbn. tauto. }
  assert (T : forall v r2, gv (x :: r) v r2 -> gv r v r2).
  { intros v r2. apply (gv_trans r [x]); [cn | repeat constructor; exact X]. }
  apply ends_step.
  - apply ends_bind, ends_incref; [now left|].
    intros o s [C G]. destruct (counted_live fileP _ _ _ l C) as [y Y]; [right; right; now left|].
    unfold bind at 1, get. rewrite Y. unfold bind at 1, set.
    assert (R : ok fileP (with_heap (put l (mkObj (o_refs y) (x :: o_items y) (o_file y)) (st_heap s)) s) lg (l :: x :: r)).
    { split; [|exact G]. cbn. pose proof C as [_ C0]. specialize (C0 l). rewrite Y in C0. destruct C0 as (C1 & C2 & C3 & C4 & C5 & C6).
      assert (N : x <> l). { intros E. subst l. unfold x in L. cbn in L. destruct K; congruence. }
      apply (counted_put fileP _ _ (x :: x :: l :: r) (l :: x :: r) l y); cbn; try assumption; try lia; auto.
      - rewrite !cnt_cons. destruct (id_dec x l); [easy|]. lia.
      - intros j J. rewrite !cnt_cons. destruct (id_dec x j), (id_dec l j); lia.
      - rewrite !cnt_cons. destruct (id_dec x l); [easy | lia].
      - rewrite L in *. constructor; [exact K | exact C4]. }
    exact (ends_mono fileP lg _ _ _ (gv r) (IH (x :: r) (or_intror I)) T o _ R).
  - eapply ends_ext; [| apply ends_bind, (ends_decref fileP fileP_whole); eapply ends_mono; [apply (nothing_ends (x :: r)) | exact T]].
    intros i. rewrite !cnt_cons. lia.
Qed.
Lemma list_good k p : (k = OPart \/ k = OMeta) -> fst p = OPackage -> (forall j, is_element j -> leak j) -> good [p] (package_list k p).
Proof.
  intros K P LE r I L. apply ends_bind, (ends_use fileP); [apply I; now left|]. apply ends_step; [|apply nothing_ends].
  apply ends_bind. apply (ends_new fileP lg OList [] Closed r); [constructor | discriminate | reflexivity|]. intros m.
  apply ends_bind, ends_ask. intros n. apply append_good; auto. apply I. now left.
Qed.
End P.
