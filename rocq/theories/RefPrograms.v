(* RefPrograms.v -- all programs *)
From Verif Require Import RefModel RefSpec RefProofs RefCalls.

Lemma look_unbind x e i j : look x e = Some i -> cnt (map snd e) j = cnt [i] j + cnt (map snd (unbind x e)) j.
Proof.
  induction e as [|[y k] r IH]; cbn; [discriminate|]. destruct (x =? y); cbn; intros E.
  - injection E as ->. rewrite cnt_cons, cnt_cons, cnt_nil. lia.
  - specialize (IH E). rewrite (cnt_cons k), (cnt_cons k). lia.
Qed.
Lemma unbind_none x e : look x e = None -> unbind x e = e.
Proof. induction e as [|[y k] r IH]; cbn; [reflexivity|]. destruct (x =? y); [discriminate|]. intros E. f_equal. auto. Qed.
Lemma look_in x e i : look x e = Some i -> In i (map snd e).
Proof. induction e as [|[y k] r IH]; cbn; [discriminate|]. destruct (x =? y); [intros [= ->]; now left | auto]. Qed.
Lemma look_other x y e : x <> y -> look y (unbind x e) = look y e.
Proof.
  intros N. induction e as [|[z k] r IH]; cbn; [reflexivity|]. destruct (Nat.eqb_spec x z); cbn.
  - destruct (Nat.eqb_spec y z); [lia | reflexivity].
  - destruct (y =? z); [reflexivity | exact IH].
Qed.
Lemma okind_eqb_eq a b : okind_eqb a b = true -> a = b.
Proof. destruct a, b; easy. Qed.

Section P.
Variable fileP : fstate -> Prop.
Hypothesis fileP_whole : ~ fileP Broken.
Hypothesis fileP_open : fileP Open.
Variable leak : id -> Prop.
Hypothesis leak_string : forall j, is_string j -> leak j.
Notation ends := (ends fileP). Notation ok := (ok fileP).

(* [K]: the variable that keeps the log function *)
Definition fine_call (K : option var) (c : call) : Prop :=
  match c with
  | CPackage _ r => r <> Damaged /\ (r = NoFile -> fileP Closed)
  | CClose _ => fileP Closed
  | CAddMeta _ (Some _) s w => w = false \/ s = false
  | CSetLog (Some f) => K = Some f
  | CAll _ _ => forall j, is_element j -> leak j
  | _ => True
  end.
Definition fine (K : option var) (t : stmt) : Prop :=
  match t with SLet x c => K <> Some x /\ fine_call K c | SCopy x _ | SDel x => K <> Some x end.
Definition is_setlog (c : call) : bool := match c with CSetLog _ => true | _ => false end.

Section C.
Variable lg : option id.
Notation good := (good fileP lg leak). Notation gv := (gv leak).
Definition goodc (e : env) (m : M value) : Prop :=
  forall L, (forall f, lg = Some f -> In f (map snd e)) -> ends lg m (map snd e ++ L) (gv (map snd e ++ L)).
Lemma goodc_nothing e : goodc e nothing.
Proof. intros L _. apply nothing_ends. Qed.
Lemma goodc_good e args m : good args m -> (forall a, In a args -> In a (map snd e)) -> goodc e m.
Proof.
  intros G I L F. apply G; [intros a A; apply in_or_app; left; auto | intros f E; apply in_or_app; left; auto].
Qed.
Lemma arg_good k x e m : (forall i, In i (map snd e) -> fst i = k -> goodc e (m i)) -> goodc e (arg k x e m).
Proof.
  intros H. unfold arg. destruct (look x e) as [i|] eqn:E; [|apply goodc_nothing]. destruct (okind_eqb (fst i) k) eqn:B; [|apply goodc_nothing].
  apply H; [eapply look_in, E | now apply okind_eqb_eq].
Qed.
Ltac args := intros a A; repeat (destruct A as [<-|A]; [assumption|]); destruct A.
Lemma run_call_good K e c : fine_call K c -> is_setlog c = false -> goodc e (run_call e c).
Proof.
  intros F S. assert (KK : forall b, kind_of b = OPart \/ kind_of b = OMeta) by (intros []; cbn; auto).
  destruct c; try discriminate; cbn [run_call fine_call] in *.
  - intros L _. apply string_value.
  - intros L _. apply ends_bind. apply (ends_new fileP lg OFunction [] Closed); [reflexivity | discriminate | reflexivity|]. intros n. apply ends_ret, gv_some.
  - apply arg_good. intros i I P. destruct F as [F1 F2]. apply (goodc_good e [i]); [now apply make_package_good | args].
  - apply arg_good. intros i I P. apply (goodc_good e [i]); [now apply close_good | args].
  - apply arg_good. intros i I P. apply arg_good. intros j J Q. apply (goodc_good e [i; j]); [now apply key_good | args].
  - apply arg_good. intros i I P. apply arg_good. intros j J Q. apply (goodc_good e [i; j]); [now apply add_good | args].
  - destruct data as [d|].
    + apply arg_good. intros i I P. apply arg_good. intros j J Q. apply (goodc_good e [i; j]); [apply (add_meta_good fileP fileP_whole lg leak leak_string i (Some j)); assumption | args].
    + apply arg_good. intros i I P. apply (goodc_good e [i]); [apply (add_meta_good fileP fileP_whole lg leak leak_string i None); auto | args].
  - apply arg_good. intros i I P. apply (goodc_good e [i]); [now apply get_good | args].
  - apply arg_good. intros i I P. apply (goodc_good e [i]); [now apply list_good | args].
  - apply arg_good. intros i I P. apply (goodc_good e [i]); [now apply package_op_good | args].
  - unfold arg_child. destruct (look x e) as [i|] eqn:E; [|apply goodc_nothing]. destruct (_ || _); [|apply goodc_nothing].
    apply look_in in E. apply (goodc_good e [i]); [now apply child_op_good | args].
  - apply arg_good. intros i I P. apply arg_good. intros j J Q. apply (goodc_good e [i; j]); [now apply set_raw_good | args].
  - apply arg_good. intros i I P. apply (goodc_good e [i]); [now apply item_good | args].
  - destruct r as [z|].
    + apply arg_good. intros i I P. apply arg_good. intros j J Q. apply arg_good. intros l I2 P2.
      apply (goodc_good e [i; j; l]); [apply (transport_good fileP lg leak leak_string i j (Some l)) | args].
    + apply arg_good. intros i I P. apply arg_good. intros j J Q. apply (goodc_good e [i; j]); [apply (transport_good fileP lg leak leak_string i j None) | args].
Qed.
(* binding a new reference to a variable *)
Definition post (e' : env) (r' : list id) : Prop := exists L', (forall i, cnt r' i = cnt (map snd e') i + cnt L' i) /\ Forall leak L'.
Lemma bind_ends x i e L : Forall leak L -> forall r, (forall j, cnt r j = cnt [i] j + cnt L j + cnt (map snd e) j) ->
  ends lg (release (look x e) ;; ret ((x, i) :: unbind x e)) r (fun e' r' => e' = (x, i) :: unbind x e /\ post e' r').
Proof.
  intros F r E. apply ends_bind. destruct (look x e) as [j|] eqn:J; cbn [release].
  - eapply ends_ext; [|apply (ends_decref fileP fileP_whole)].
    + intros k. rewrite E. pose proof (look_unbind x e j k J) as U. instantiate (1 := i :: L ++ map snd (unbind x e)).
      rewrite (cnt_cons j), (cnt_cons i (L ++ _)), cnt_app. rewrite !cnt_cons, !cnt_nil in *. lia.
    + apply ends_ret. split; [reflexivity|]. exists L. split; [|exact F]. intros k. cbn [map snd]. rewrite !cnt_cons, cnt_app. lia.
  - apply ends_ret, ends_ret. split; [reflexivity|]. exists L. split; [|exact F]. intros k. rewrite E, unbind_none by exact J. cbn [map snd]. rewrite !cnt_cons, cnt_nil. lia.
Qed.
End C.

Definition inv (K : option var) (s : state) (e : env) : Prop :=
  exists lg L, ok s lg (map snd e ++ L) /\ Forall leak L /\ (forall f, lg = Some f -> exists k, K = Some k /\ look k e = Some f).
Lemma ok_ext s lg r r' : (forall i, cnt r i = cnt r' i) -> ok s lg r -> ok s lg r'.
Proof. intros E [C G]. split; [eapply counted_ext; eauto | exact G]. Qed.
Lemma post_inv K s lg e r : ok s lg r -> post e r -> (forall f, lg = Some f -> exists k, K = Some k /\ look k e = Some f) -> inv K s e.
Proof. intros O (L & E & F) G. exists lg, L. split; [|auto]. eapply ok_ext; [|exact O]. intros i. rewrite E, cnt_app. reflexivity. Qed.
Lemma stmt_inv K t : fine K t -> forall e o s, inv K s e -> exists e' s', run_stmt e t o s = Some (e', s') /\ inv K s' e'.
Proof.
  intros F e o s (lg & L & O & FL & G).
  assert (GI : forall f, lg = Some f -> In f (map snd e)). { intros f E. destruct (G f E) as (k & _ & LK). eapply look_in, LK. }
  assert (keep : forall x i, K <> Some x -> forall f, lg = Some f -> exists k, K = Some k /\ look k ((x, i) :: unbind x e) = Some f).
  { intros x i N f E. destruct (G f E) as (k & KE & LK). exists k. split; [exact KE|]. cbn. assert (x <> k) by congruence.
    destruct (Nat.eqb_spec k x); [congruence|]. now rewrite look_other. }
  destruct t as [x c|x y|x]; cbn [run_stmt fine] in *.
  - destruct F as [FK FC]. destruct (is_setlog c) eqn:S.
    + destruct c; try discriminate. exists e. destruct f as [f|]; cbn [run_call].
      * unfold arg. destruct (look f e) as [i|] eqn:E; [destruct (okind_eqb (fst i) OFunction)|].
        -- eexists. split; [reflexivity|]. exists (Some i), L. split; [split; [exact (proj1 O) | reflexivity]|]. split; [exact FL|]. intros g [= <-]. exists f. split; [exact FC | exact E].
        -- eexists. split; [reflexivity|]. exists lg, L. auto.
        -- eexists. split; [reflexivity|]. exists lg, L. auto.
      * eexists. split; [reflexivity|]. exists None, L. split; [split; [exact (proj1 O) | reflexivity]|]. split; [exact FL | discriminate].
    + assert (X : ends lg (r <- run_call e c;; match r with Some i => release (look x e);; ret ((x, i) :: unbind x e) | None => ret e end) (map snd e ++ L)
                    (fun e' r' => post e' r' /\ forall f, lg = Some f -> exists k, K = Some k /\ look k e' = Some f)).
      { apply ends_bind. eapply ends_mono; [exact (run_call_good lg K e c FC S L GI)|]. intros v r' (L2 & E2 & F2).
        assert (F3 : Forall leak (L2 ++ L)) by now apply Forall_app. destruct v as [i|].
        - eapply ends_mono; [apply (bind_ends lg x i e (L2 ++ L) F3)|].
          + intros j. rewrite E2, !cnt_app. cbn [val]. lia.
          + intros e' r2 [-> P]. split; [exact P | now apply keep].
        - apply ends_ret. split; [|exact G]. exists (L2 ++ L). split; [|exact F3]. intros j. rewrite E2, !cnt_app. cbn [val]. rewrite cnt_nil. lia. }
      destruct (X o s O) as (e' & s' & r' & R & O' & P & G'). exists e', s'. split; [exact R|]. eapply post_inv; eauto.
  - destruct (look y e) as [i|] eqn:E; [|exists e, s; split; [reflexivity | now exists lg, L]].
    assert (X : ends lg (incref i;; release (look x e);; ret ((x, i) :: unbind x e)) (map snd e ++ L)
                  (fun e' r' => post e' r' /\ forall f, lg = Some f -> exists k, K = Some k /\ look k e' = Some f)).
    { apply ends_bind, ends_incref; [apply in_or_app; left; eapply look_in, E|].
      eapply ends_mono; [apply (bind_ends lg x i e L FL)|].
      - intros j. rewrite !cnt_cons, !cnt_app, cnt_nil. lia.
      - intros e' r2 [-> P]. split; [exact P | now apply keep]. }
    destruct (X o s O) as (e' & s' & r' & R & O' & P & G'). exists e', s'. split; [exact R|]. eapply post_inv; eauto.
  - assert (X : ends lg (release (look x e);; ret (unbind x e)) (map snd e ++ L) (fun e' r' => e' = unbind x e /\ post e' r')).
    { apply ends_bind. destruct (look x e) as [j|] eqn:J; cbn [release].
      - eapply ends_ext; [|apply (ends_decref fileP fileP_whole)].
        + intros k. pose proof (look_unbind x e j k J) as U. instantiate (1 := map snd (unbind x e) ++ L). rewrite (cnt_cons j), !cnt_app. rewrite cnt_cons, cnt_nil in U. lia.
        + apply ends_ret. split; [reflexivity|]. exists L. split; [intros k; apply cnt_app | exact FL].
      - apply ends_ret, ends_ret. split; [reflexivity|]. exists L. rewrite unbind_none by exact J. split; [intros k; apply cnt_app | exact FL]. }
    destruct (X o s O) as (e' & s' & r' & R & O' & -> & P). exists (unbind x e), s'. split; [exact R|]. eapply post_inv; [exact O' | exact P|].
    intros f E. destruct (G f E) as (k & KE & LK). exists k. split; [exact KE|]. rewrite look_other; [exact LK | congruence].
Qed.
Lemma prog_inv K p : Forall (fine K) p -> forall e o s, inv K s e -> exists e' s', run_prog e p o s = Some (e', s') /\ inv K s' e'.
Proof.
  induction p as [|t p IH]; intros F e o s I; [exists e, s; now split|]. inversion F; subst. cbn [run_prog].
  destruct (stmt_inv K t H1 e o s I) as (e1 & s1 & R & I1). destruct (IH H2 e1 o s1 I1) as (e2 & s2 & R2 & I2).
  exists e2, s2. unfold bind. rewrite R. now split.
Qed.
Lemma inv_start K : inv K start [].
Proof.
  exists None, []. split; [split; [|reflexivity]|split; [constructor | discriminate]]. split; [constructor|]. intros i. reflexivity.
Qed.
Lemma inv_none K s e : inv None s e -> inv K s e.
Proof. intros (lg & L & O & F & G). exists lg, L. split; [exact O|]. split; [exact F|]. intros f E. destruct (G f E) as (k & [=] & _). Qed.
Lemma run_app p q : forall e o s, run_prog e (p ++ q) o s = match run_prog e p o s with Some (e1, s1) => run_prog e1 q o s1 | None => None end.
Proof.
  induction p as [|t p IH]; intros e o s; [reflexivity|]. cbn [app run_prog]. unfold bind. destruct (run_stmt e t o s) as [[e1 s1]|]; [apply IH | reflexivity].
Qed.
Lemma two_phases K p q : Forall (fine None) p -> Forall (fine K) q -> forall o, exists e s, run_prog [] (p ++ q) o start = Some (e, s) /\ inv K s e.
Proof.
  intros F G o. destruct (prog_inv None p F [] o start (inv_start None)) as (e1 & s1 & R1 & I1).
  destruct (prog_inv K q G e1 o s1 (inv_none K s1 e1 I1)) as (e2 & s2 & R2 & I2). exists e2, s2. rewrite run_app, R1. now split.
Qed.
Lemma whole_ends K p q : Forall (fine None) p -> Forall (fine K) q -> forall o, exists s, whole (p ++ q) o start = Some (tt, s) /\ exists lg L, ok s lg L /\ Forall leak L.
Proof.
  intros F G o. destruct (two_phases K p q F G o) as (e & s & R & lg & L & O & FL & _).
  destruct (ends_each_decref fileP fileP_whole lg (map snd e) L (fun _ r' => r' = L) eq_refl o s O) as (u & s2 & r2 & R2 & O2 & ->).
  exists s2. unfold whole, bind. rewrite R. destruct u. split; [exact R2|]. now exists lg, L.
Qed.
(* what a variable holds is there, and what that holds *)
Lemma inv_alive K s e : inv K s e -> forall x i, look x e = Some i ->
  exists y, find i (st_heap s) = Some y /\ shape (fst i) (o_items y) /\
            forall j, In j (o_items y) -> exists z, find j (st_heap s) = Some z /\ shape (fst j) (o_items z) /\ (fst j = OPackage -> fileP (o_file z)).
Proof.
  intros (lg & L & [C _] & _) x i E. destruct (counted_live fileP _ _ _ i C) as [y Y]; [apply in_or_app; left; eapply look_in, E|].
  exists y. split; [exact Y|]. pose proof C as [_ C1]. pose proof (C1 i) as Ci. rewrite Y in Ci. split; [tauto|]. intros j J.
  destruct (counted_item fileP _ _ _ _ _ j C Y J) as [z Z]. exists z. split; [exact Z|]. pose proof (C1 j) as Cj. rewrite Z in Cj. tauto.
Qed.
(* who holds an object *)
Lemma held_by h i : NoDup (map fst h) -> In i (held h) -> exists j z, find j h = Some z /\ In i (o_items z).
Proof.
  intros N I. unfold held in I. apply in_flat_map in I as ([j z] & J & I). exists j, z. split; [|exact I]. clear I.
  induction h as [|[k w] r IH]; [destruct J|]. cbn in N |- *. inversion N; subst. destruct J as [J|J].
  - injection J as -> ->. destruct (id_dec j j); easy.
  - destruct (id_dec j k) as [->|]; [|auto]. exfalso. apply H1. apply (in_map fst) in J. exact J.
Qed.
(* reachable from [roots] *)
Inductive reach (h : heap) (roots : list id) : id -> Prop :=
| reach_root i : In i roots -> reach h roots i
| reach_item j z i : reach h roots j -> find j h = Some z -> In i (o_items z) -> reach h roots i.
Lemma reachable s lg roots L : ok s lg (roots ++ L) -> Forall is_string L ->
  forall i y, find i (st_heap s) = Some y -> fst i <> OString -> reach (st_heap s) roots i.
Proof.
  intros [[N C] _] F.
  assert (X : forall n i y, find i (st_heap s) = Some y -> fst i <> OString -> 3 <= level (fst i) + n -> reach (st_heap s) roots i).
  { induction n as [|n IH]; intros i y Y D H; [destruct i as [[] m]; cbn in H; lia|].
    pose proof (C i) as Ci. rewrite Y in Ci. destruct Ci as (E & P & _). rewrite cnt_app in E.
    assert (Z : cnt L i = 0). { destruct (Nat.eq_dec (cnt L i) 0); [assumption|]. exfalso. apply D. rewrite Forall_forall in F. apply F, cnt_in. lia. }
    destruct (Nat.eq_dec (cnt roots i) 0) as [R|R]; [|apply reach_root, cnt_in; lia].
    destruct (held_by (st_heap s) i N) as (j & z & J & I); [apply cnt_in; lia|].
    pose proof (C j) as Cj. rewrite J in Cj. destruct Cj as (_ & _ & _ & S & _). pose proof (shape_level _ _ S) as S2. rewrite Forall_forall in S2. specialize (S2 i I).
    apply reach_item with j z; [|exact J|exact I]. apply (IH j z J); [|lia]. intros E2. rewrite E2 in S2. cbn in S2. lia. }
  intros i y Y D. apply (X 3 i y Y D). lia.
Qed.
(* what lists leave behind *)
Lemma elements_left s lg L : ok s lg L -> Forall is_element L -> forall i y, find i (st_heap s) = Some y -> is_element i \/ fst i = OPackage.
Proof.
  intros [[N C] _] F i y Y. pose proof (C i) as Ci. rewrite Y in Ci. destruct Ci as (E & P & _).
  destruct (Nat.eq_dec (cnt L i) 0) as [Z|Z]; [|left; rewrite Forall_forall in F; apply F, cnt_in; lia].
  destruct (held_by (st_heap s) i N) as (j & z & J & I); [apply cnt_in; lia|].
  pose proof (C j) as Cj. rewrite J in Cj. destruct Cj as (_ & _ & _ & S & _). unfold is_element. destruct (fst j); cbn in S.
  all: try (rewrite S in I; destruct I).
  - destruct S as (p & S & K). rewrite S in I. destruct I as [<-|[]]. now right.
  - destruct S as (p & S & K). rewrite S in I. destruct I as [<-|[]]. now right.
  - rewrite Forall_forall in S. left. right. apply S, I.
Qed.
End P.
