(* RefProofs.v *)
From Verif Require Import RefModel RefSpec.

Lemma cnt_app a b i : cnt (a ++ b) i = cnt a i + cnt b i.
Proof. apply count_occ_app. Qed.
Lemma cnt_cons j l i : cnt (j :: l) i = (if id_dec j i then 1 else 0) + cnt l i.
Proof. unfold cnt. cbn. destruct (id_dec j i); reflexivity. Qed.
Lemma cnt_nil i : cnt [] i = 0.
Proof. reflexivity. Qed.
Lemma cnt_in l i : In i l <-> 0 < cnt l i.
Proof. unfold cnt. split; intros H; apply (count_occ_In id_dec); exact H. Qed.
Lemma cnt_self i l : cnt (i :: l) i = S (cnt l i).
Proof. rewrite cnt_cons. destruct (id_dec i i); [reflexivity | easy]. Qed.

Lemma find_in i h x : find i h = Some x -> In (i, x) h.
Proof.
  induction h as [|[j y] r IH]; cbn; [discriminate|]. destruct (id_dec i j) as [->|N]; [intros [= ->]; now left | intros F; right; auto].
Qed.
Lemma find_none i h : find i h = None <-> ~ In i (map fst h).
Proof.
  induction h as [|[j y] r IH]; cbn; [tauto|]. destruct (id_dec i j) as [->|N]; [split; [discriminate | tauto]|].
  rewrite IH. split; [intros K [E|E]; [congruence | tauto] | tauto].
Qed.
Lemma find_put i x j h : find j (put i x h) = if id_dec j i then (match find i h with Some _ => Some x | None => None end) else find j h.
Proof.
  induction h as [|[k y] r IH]; cbn; [destruct (id_dec j i); reflexivity|].
  destruct (id_dec i k) as [<-|N]; cbn.
  - destruct (id_dec j i); reflexivity.
  - rewrite IH. destruct (id_dec j k) as [->|N2]; [destruct (id_dec k i); [congruence | reflexivity] | reflexivity].
Qed.
Lemma keys_put i x h : map fst (put i x h) = map fst h.
Proof. induction h as [|[j y] r IH]; cbn; [reflexivity|]. destruct (id_dec i j) as [->|N]; cbn; congruence. Qed.
Lemma held_put i x y h j : find i h = Some y -> cnt (held (put i x h)) j + cnt (o_items y) j = cnt (held h) j + cnt (o_items x) j.
Proof.
  unfold held. induction h as [|[k z] r IH]; cbn; [discriminate|]. destruct (id_dec i k) as [->|N]; cbn; intros F; rewrite ?cnt_app in *.
  - injection F as ->. lia.
  - specialize (IH F). lia.
Qed.
Lemma held_del i y h j : find i h = Some y -> cnt (held h) j = cnt (o_items y) j + cnt (held (del i h)) j.
Proof.
  unfold held. induction h as [|[k z] r IH]; cbn; [discriminate|]. destruct (id_dec i k) as [->|N]; cbn; intros F; rewrite ?cnt_app in *.
  - injection F as ->. lia.
  - specialize (IH F). lia.
Qed.
Lemma keys_del i j h : In j (map fst (del i h)) -> In j (map fst h).
Proof. induction h as [|[k z] r IH]; cbn; [easy|]. destruct (id_dec i k); cbn; tauto. Qed.
Lemma nodup_del i h : NoDup (map fst h) -> NoDup (map fst (del i h)).
Proof.
  induction h as [|[k z] r IH]; cbn; intros N; [constructor|]. inversion N; subst. destruct (id_dec i k); [assumption|]. cbn.
  constructor; [intros I; apply keys_del in I; tauto | auto].
Qed.
Lemma find_del i j h : NoDup (map fst h) -> find j (del i h) = if id_dec j i then None else find j h.
Proof.
  induction h as [|[k z] r IH]; cbn; intros N; [destruct (id_dec j i); reflexivity|]. inversion N; subst. destruct (id_dec i k) as [->|D].
  - destruct (id_dec j k) as [->|D2]; [now apply find_none | reflexivity].
  - cbn. rewrite IH by assumption. destruct (id_dec j k) as [->|D2]; [destruct (id_dec k i); [congruence | reflexivity] | reflexivity].
Qed.

Definition level (k : okind) : nat := match k with OList => 2 | OPart | OMeta => 1 | _ => 0 end.
Lemma shape_level k l : shape k l -> Forall (fun j => level (fst j) < level k) l.
Proof.
  destruct k; cbn; intros S; try (subst; constructor).
  - destruct S as (p & -> & E). constructor; [rewrite E; cbn; lia | constructor].
  - destruct S as (p & -> & E). constructor; [rewrite E; cbn; lia | constructor].
  - eapply Forall_impl; [|exact S]. intros j [-> | ->]; cbn; lia.
Qed.
Section P.
Variable fileP : fstate -> Prop.
Hypothesis fileP_whole : ~ fileP Broken.
Hypothesis fileP_open : fileP Open.
Notation counted := (counted fileP). Notation ok := (ok fileP). Notation ends := (ends fileP).

Lemma counted_ext h n r r' : (forall i, cnt r i = cnt r' i) -> counted h n r -> counted h n r'.
Proof. intros E [N C]. split; [exact N|]. intros i. specialize (C i). rewrite <- E. exact C. Qed.
Lemma counted_live h n r i : counted h n r -> In i r -> exists x, find i h = Some x.
Proof.
  intros [_ C] I. specialize (C i). apply cnt_in in I. destruct (find i h); [eauto | lia].
Qed.
Lemma counted_item h n r i x j : counted h n r -> find i h = Some x -> In j (o_items x) -> exists y, find j h = Some y.
Proof.
  intros [_ C] F I. specialize (C j). pose proof (held_del i x h j F) as E. apply cnt_in in I. destruct (find j h); [eauto | lia].
Qed.
Lemma counted_new h n r k items f : counted h n (items ++ r) -> shape k items ->
  (k = OPackage -> fileP f) -> (k <> OPackage -> f = Closed) -> counted (((k, n), mkObj 1 items f) :: h) (S n) ((k, n) :: r).
Proof.
  intros [N C] L F1 F2.
  assert (Z : find (k, n) h = None). { specialize (C (k, n)). destruct (find (k, n) h); [cbn in C; lia | reflexivity]. }
  split; [cbn; constructor; [now apply find_none | exact N]|]. intros i. cbn [find held flat_map]. change (flat_map _ h) with (held h). cbn [snd o_items].
  rewrite !cnt_app, cnt_cons. specialize (C i). rewrite cnt_app in C. destruct (id_dec i (k, n)) as [->|D].
  - rewrite Z in C. destruct (id_dec (k, n) (k, n)); [|easy]. cbn. split; [lia|]. split; [lia|]. split; [lia|]. auto.
  - destruct (id_dec (k, n) i); [congruence|]. destruct (find i h) as [x|]; [| cbn; lia]. destruct C as (C1 & C2 & C3 & C4). split; [lia|]. split; [exact C2|]. split; [lia | exact C4].
Qed.
(* an object changes: its count by the roots, its items by the rest *)
Lemma counted_put h n r r' i x y : counted h n r -> find i h = Some x ->
  0 < o_refs y -> o_refs y + cnt r i = o_refs x + cnt r' i ->
  (forall j, j <> i -> cnt r' j + cnt (o_items y) j = cnt r j + cnt (o_items x) j) ->
  cnt (o_items y) i = cnt (o_items x) i ->
  shape (fst i) (o_items y) ->
  (fst i = OPackage -> fileP (o_file y)) -> (fst i <> OPackage -> o_file y = Closed) -> counted (put i y h) n r'.
Proof.
  intros [N C] F P E E2 E3 L F1 F2. split; [rewrite keys_put; exact N|]. intros j. rewrite find_put. pose proof (held_put i y x h j F) as H.
  specialize (C j). destruct (id_dec j i) as [->|D].
  - rewrite F in *. destruct C as (C1 & C2 & C3 & C4). split; [lia|]. auto.
  - specialize (E2 j D). destruct (find j h) as [z|]; [|lia]. destruct C as (C1 & C2 & C3 & C4). split; [lia|]. auto.
Qed.
Lemma counted_del h n r i x : counted h n (i :: r) -> find i h = Some x -> o_refs x <= 1 -> counted (del i h) n (o_items x ++ r).
Proof.
  intros [N C] F P. split; [now apply nodup_del|]. intros j. rewrite find_del by exact N. pose proof (held_del i x h j F) as H. specialize (C j).
  rewrite cnt_app. rewrite cnt_cons in C. destruct (id_dec j i) as [->|D].
  - rewrite F in C. destruct (id_dec i i); [|easy]. destruct C as (C1 & C2 & C3 & C4). lia.
  - destruct (id_dec i j); [congruence|]. destruct (find j h) as [z|]; [|lia]. destruct C as (C1 & C2 & C3 & C4). split; [lia|]. auto.
Qed.

(* ---- the calculus ---- *)
Lemma ends_ret {A} lg (a : A) r (Q : A -> list id -> Prop) : Q a r -> ends lg (ret a) r Q.
Proof. intros H o s K. exists a, s, r. auto. Qed.
Lemma ends_bind {A B} lg (m : M A) (k : A -> M B) r Q : ends lg m r (fun a r' => ends lg (k a) r' Q) -> ends lg (bind m k) r Q.
Proof.
  intros H o s K. destruct (H o s K) as (a & s1 & r1 & R & K1 & H1). destruct (H1 o s1 K1) as (b & s2 & r2 & R2 & K2 & P).
  exists b, s2, r2. unfold bind. rewrite R. auto.
Qed.
Lemma ends_mono {A} lg (m : M A) r (P Q : A -> list id -> Prop) : ends lg m r P -> (forall a r', P a r' -> Q a r') -> ends lg m r Q.
Proof. intros H I o s K. destruct (H o s K) as (a & s1 & r1 & R & K1 & H1). exists a, s1, r1. auto. Qed.
Lemma ends_ext {A} lg (m : M A) r r0 (Q : A -> list id -> Prop) : (forall i, cnt r i = cnt r0 i) -> ends lg m r0 Q -> ends lg m r Q.
Proof. intros E H o s [K L]. apply H. split; [eapply counted_ext; eauto | exact L]. Qed.
Lemma ends_ask lg r (Q : nat -> list id -> Prop) : (forall n, Q n r) -> ends lg ask r Q.
Proof. intros H o s [K L]. eexists _, _, r. split; [reflexivity|]. split; [split; [exact K | exact L] | apply H]. Qed.
Lemma ends_step {A} lg (a b : M A) r Q : ends lg a r Q -> ends lg b r Q -> ends lg (step a b) r Q.
Proof. intros HA HB. apply ends_bind, ends_ask. intros n. destruct (n =? 0); assumption. Qed.
Lemma ends_get lg i r (Q : obj -> list id -> Prop) : In i r ->
  (forall x, shape (fst i) (o_items x) -> (fst i = OPackage -> fileP (o_file x)) -> Q x r) -> ends lg (get i) r Q.
Proof.
  intros I H o s [K L]. destruct (counted_live _ _ _ _ K I) as [x F]. exists x, s, r. unfold get. rewrite F. split; [reflexivity|].
  split; [split; assumption|]. destruct K as [_ C]. specialize (C i). rewrite F in C. apply H; tauto.
Qed.
Lemma ends_use lg i r (Q : unit -> list id -> Prop) : In i r -> Q tt r -> ends lg (use i) r Q.
Proof. intros I H. apply ends_bind, ends_get; [exact I|]. intros x _ _. apply ends_ret, H. Qed.
Lemma ends_use_all lg i r (Q : unit -> list id -> Prop) : In i r -> Q tt r -> ends lg (use_all i) r Q.
Proof.
  intros I H o s [K L]. destruct (counted_live _ _ _ _ K I) as [x F]. unfold use_all, bind, get. rewrite F.
  assert (X : forall l, incl l (o_items x) -> each use l o s = Some (tt, s)).
  { induction l as [|j l IH]; intros S; [reflexivity|]. cbn [each]. unfold bind, use, bind, get.
    destruct (counted_item _ _ _ _ _ j K F) as [y E]; [apply S; now left|]. rewrite E. apply IH. intros z Z. apply S. now right. }
  exists tt, s, r. split; [apply X, incl_refl|]. split; [split; assumption | exact H].
Qed.
Lemma ends_new lg k items f r (Q : id -> list id -> Prop) : shape k items ->
  (k = OPackage -> fileP f) -> (k <> OPackage -> f = Closed) -> (forall n, Q (k, n) ((k, n) :: r)) -> ends lg (new k items f) (items ++ r) Q.
Proof.
  intros L F1 F2 H o s [K G]. eexists _, _, _. split; [reflexivity|]. split; [split; [apply counted_new; eassumption | exact G] | apply H].
Qed.
Lemma ends_string lg r (Q : id -> list id -> Prop) : (forall n, Q (OString, n) ((OString, n) :: r)) -> ends lg (new OString [] Closed) r Q.
Proof. intros H. apply (ends_new lg OString [] Closed r Q); [reflexivity | discriminate | reflexivity | exact H]. Qed.
Lemma ends_temp lg r (Q : id -> list id -> Prop) : (forall n, Q (OTemp, n) ((OTemp, n) :: r)) -> ends lg (new OTemp [] Closed) r Q.
Proof. intros H. apply (ends_new lg OTemp [] Closed r Q); [reflexivity | discriminate | reflexivity | exact H]. Qed.
Lemma ends_incref lg i r (Q : unit -> list id -> Prop) : In i r -> Q tt (i :: r) -> ends lg (incref i) r Q.
Proof.
  intros I H o s [K L]. destruct (counted_live _ _ _ _ K I) as [x F]. unfold incref, bind, get, set. rewrite F.
  eexists _, _, (i :: r). split; [reflexivity|]. split; [|exact H]. split; [|exact L].
  pose proof K as [_ C]. specialize (C i). rewrite F in C. destruct C as (C1 & C2 & C3 & C4 & C5 & C6). cbn.
  apply (counted_put _ _ r (i :: r) i x); cbn; try assumption; try lia; auto.
  - rewrite cnt_self. lia.
  - intros j D. rewrite cnt_cons. destruct (id_dec i j); [congruence | lia].
Qed.
Lemma decref_ends lg n : forall i r (Q : unit -> list id -> Prop), level (fst i) < n -> Q tt r -> ends lg (decref_n n i) (i :: r) Q.
Proof.
  induction n as [|n IH]; intros i r Q L H; [lia|]. intros o s [K G].
  destruct (counted_live _ _ _ i K) as [x F]; [now left|]. cbn [decref_n]. unfold bind at 1, get. rewrite F.
  pose proof K as [_ C]. specialize (C i). rewrite F in C. destruct C as (C1 & C2 & C3 & C4 & C5 & C6).
  destruct (Nat.ltb_spec 1 (o_refs x)) as [B|B].
  - unfold set. eexists _, _, r. split; [reflexivity|]. split; [|exact H]. split; [|exact G]. cbn.
    apply (counted_put _ _ (i :: r) r i x); cbn; try assumption; try lia; auto.
    + rewrite cnt_self. lia.
    + intros j D. rewrite cnt_cons. destruct (id_dec i j); [congruence | lia].
  - assert (E : o_file x <> Broken). { intros E. rewrite E in *. destruct (id_dec i i); destruct i as [k m]; cbn in *; destruct k; try (now apply fileP_whole, C5); specialize (C6 ltac:(discriminate)); discriminate. }
    assert (X : forall l r', Forall (fun j => level (fst j) < n) l -> ends lg (each (decref_n n) l) (l ++ r') (fun _ r1 => r1 = r')).
    { induction l as [|j l IHl]; intros r' A; [apply ends_ret; reflexivity|]. inversion A; subst. cbn [each app]. apply ends_bind.
      apply IH; [assumption|]. now apply IHl. }
    assert (A : Forall (fun j => level (fst j) < n) (o_items x)). { eapply Forall_impl; [|exact (shape_level _ _ C4)]. intros j Hj. cbn in Hj. lia. }
    assert (K1 : ok (with_heap (del i (st_heap s)) s) lg (o_items x ++ r)). { split; [|exact G]. cbn. now apply counted_del. }
    destruct (X (o_items x) r A o _ K1) as (a & s' & r1 & R & K2 & ->). exists a, s', r. destruct a.
    destruct (o_file x); [| |easy]; unfold bind, forget; rewrite R; auto.
Qed.
Lemma ends_decref lg i r (Q : unit -> list id -> Prop) : Q tt r -> ends lg (decref i) (i :: r) Q.
Proof. apply decref_ends. destruct i as [[] m]; cbn; lia. Qed.
Lemma ends_each_decref lg l : forall r (Q : unit -> list id -> Prop), Q tt r -> ends lg (each decref l) (l ++ r) Q.
Proof. induction l as [|i l IH]; intros r Q H; [apply ends_ret, H|]. cbn [each app]. apply ends_bind, ends_decref, IH, H. Qed.
Lemma ends_library lg r (Q : nat -> list id -> Prop) : (forall f, lg = Some f -> In f r) ->
  (forall n l, Forall (fun j => fst j = OString) l -> (lg = None -> l = []) -> Q n (l ++ r)) -> ends lg library r Q.
Proof.
  intros I H. apply ends_bind, ends_ask. intros n. apply ends_bind.
  assert (X : forall r0, (forall f, lg = Some f -> In f r0) ->
    ends lg (repeat_m n log_once) r0 (fun _ r1 => exists l, r1 = l ++ r0 /\ Forall (fun j => fst j = OString) l /\ (lg = None -> l = []))).
  { induction n as [|n IH]; intros r0 I0; cbn [repeat_m]; [apply ends_ret; now exists []|]. apply ends_bind.
    intros o s K. unfold log_once. pose proof K as [K1 G]. rewrite G. destruct lg as [f|].
    - assert (Y : ends (Some f) (use f;; new OString [] Closed;; ret tt) r0 (fun _ r1 => exists m, r1 = (OString, m) :: r0)).
      { apply ends_bind, ends_use; [now apply I0|]. apply ends_bind, ends_string. intros m. apply ends_ret. now exists m. }
      destruct (Y o s K) as (a & s1 & r1 & R & K2 & m & ->). exists a, s1, ((OString, m) :: r0). split; [exact R|]. split; [exact K2|].
      eapply ends_mono; [apply IH; intros f0 E; right; now apply I0|]. intros u r2 (l & -> & F & _). exists (l ++ [(OString, m)]).
      rewrite <- app_assoc. split; [reflexivity|]. split; [apply Forall_app; split; [exact F | repeat constructor] | discriminate].
    - exists tt, s, r0. split; [reflexivity|]. split; [exact K|]. apply IH, I0. }
  eapply ends_mono; [apply X, I|]. intros u r1 (l & -> & F & N). apply ends_ask. intros m. now apply H.
Qed.
End P.
