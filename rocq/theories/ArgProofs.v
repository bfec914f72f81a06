(* ArgProofs.v -- the scanner of ArgModel.v reads what ArgSpec.v describes. *)
From Coq Require Import String Permutation.
From Verif Require Import Base BaseLemmas HeaderModel CrcModel HashModel VerifyModel PkgModel CliModel CliSpec CliArgs TransportModel TransportCliModel
  ArgModel ArgSpec.
Local Open Scope Z_scope.

Definition ev (x : opt) : oev := EOpt (fst x) (snd x).
Lemma ev_map_inj l1 l2 : map ev l1 = map ev l2 -> l1 = l2.
Proof.
  revert l2. induction l1 as [|[c v] r IH]; intros [|[d u] s] H; try discriminate; [reflexivity|].
  cbn [map] in H. injection H as H1 H2 H3. f_equal; [unfold opt; congruence | now apply IH].
Qed.

Lemma prefix_iff a b : prefix a b = true <-> is_prefix a b.
Proof.
  revert b. induction a as [|x a IH]; intros b; cbn [prefix].
  { split; [intros _; now exists b | reflexivity]. }
  destruct b as [|y b]; [split; [discriminate | intros [c H]; discriminate H]|].
  rewrite andb_true_iff, IH, Z.eqb_eq. split.
  - intros [-> [c ->]]. now exists c.
  - intros [c H]. cbn [app] in H. injection H as -> H. split; [reflexivity | now exists c].
Qed.
Lemma is_prefix_refl a : is_prefix a a.
Proof. exists []. now rewrite app_nil_r. Qed.

Lemma filter_one {A} (p : A -> bool) l z : NoDup l -> In z l -> p z = true -> (forall x, In x l -> p x = true -> x = z) -> filter p l = [z].
Proof.
  intros N I P U. induction N as [|x r Nx Nr IH]; [destruct I|]. cbn [filter].
  destruct I as [->|I].
  - rewrite P. f_equal. clear IH. assert (E : forall y, In y r -> p y = false).
    { intros y J. destruct (p y) eqn:D; [|reflexivity]. exfalso. assert (y = z) by (apply U; [now right | exact D]). now subst. }
    clear - E. induction r as [|y r IH]; [reflexivity|]. cbn [filter]. rewrite (E y (or_introl eq_refl)). apply IH. intros; apply E; now right.
  - destruct (p x) eqn:D; [exfalso; assert (x = z) by (apply U; [now left | exact D]); now subst|].
    apply IH; [exact I|]. intros y J. apply U. now right.
Qed.

Section Long.
Variable ls : longs.
Hypothesis N : NoDup (map (fun o : bytes * bool * Z => fst (fst o)) ls).
Lemma name_once x y : In x ls -> In y ls -> fst (fst x) = fst (fst y) -> x = y.
Proof using N.
  clear - N. induction ls as [|z r IH]; [intros []|]. cbn [map] in N. apply NoDup_cons_iff in N as [N1 N2]. intros [->|I] [->|J] E.
  - reflexivity.
  - exfalso. apply N1. rewrite E. exact (in_map (fun o : bytes * bool * Z => fst (fst o)) _ _ J).
  - exfalso. apply N1. rewrite <- E. exact (in_map (fun o : bytes * bool * Z => fst (fst o)) _ _ I).
  - now apply IH.
Qed.
Lemma long_lookup_spec sh n a c : long_lookup ls n = Some (a, c) <-> stands_for (mkSyntax sh ls) n a c.
Proof using N.
  unfold long_lookup. split.
  - destruct (find _ ls) as [[[n' a'] c']|] eqn:F.
    + apply find_some in F as [I E]. cbn [fst] in E. apply BaseLemmas.bytes_eqb_eq in E. subst n'. intros H. injection H as -> ->. now apply full_name.
    + destruct (filter _ ls) as [|[[n' a'] c'] [|]] eqn:G; try discriminate. intros H. injection H as -> ->.
      assert (M : forall x, In x ls /\ prefix n (fst (fst x)) = true <-> In x [(n', a, c)]) by (intros x; rewrite <- G; symmetry; apply filter_In).
      destruct (proj2 (M _) (or_introl eq_refl)) as [I P]. apply cut_name with n'; cbn [sy_long].
      * exact I.
      * now apply prefix_iff.
      * intros x J Q. destruct (proj1 (M x)) as [K|[]]; [split; [exact J | now apply prefix_iff] | now symmetry].
  - intros S. destruct (find _ ls) as [[[n' a'] c']|] eqn:F.
    + apply find_some in F as [I E]. cbn [fst] in E. apply BaseLemmas.bytes_eqb_eq in E. subst n'.
      destruct S as [J|full J P U]; cbn [sy_long] in *.
      * pose proof (name_once _ _ I J eq_refl) as X. now injection X as -> ->.
      * pose proof (U _ I (is_prefix_refl n)) as X. now injection X as _ -> ->.
    + destruct S as [J|full J P U]; cbn [sy_long] in *.
      * exfalso. pose proof (find_none _ _ F _ J) as X. cbn [fst] in X. now rewrite BaseLemmas.bytes_eqb_refl in X.
      * rewrite (filter_one _ ls (full, a, c)); [reflexivity | eapply NoDup_map_inv; exact N | exact J | now apply prefix_iff |].
        intros x K Q. apply U; [exact K | now apply prefix_iff].
Qed.
End Long.

Lemma split_none n : ~ In EQUALS n -> split_eq n = (n, None).
Proof.
  induction n as [|c r IH]; [reflexivity|]. intros H. cbn [split_eq]. destruct (Z.eqb_spec c EQUALS) as [->|D]; [exfalso; apply H; now left|].
  rewrite IH; [reflexivity|]. intros I. apply H. now right.
Qed.
Lemma split_some n v : ~ In EQUALS n -> split_eq (n ++ EQUALS :: v) = (n, Some v).
Proof.
  induction n as [|c r IH]; [reflexivity|]. intros H. cbn [app split_eq]. destruct (Z.eqb_spec c EQUALS) as [->|D]; [exfalso; apply H; now left|].
  rewrite IH; [reflexivity|]. intros I. apply H. now right.
Qed.
Lemma split_inv w n v : split_eq w = (n, v) -> ~ In EQUALS n /\ w = match v with None => n | Some x => n ++ EQUALS :: x end.
Proof.
  revert n v. induction w as [|c r IH]; intros n v; cbn [split_eq].
  { intros H. injection H as <- <-. now split; [intros []|]. }
  destruct (Z.eqb_spec c EQUALS) as [->|D].
  { intros H. injection H as <- <-. now split; [intros []|]. }
  destruct (split_eq r) as [m u] eqn:E. intros H. injection H as <- <-. destruct (IH m u eq_refl) as [I ->]. split.
  - intros [X|X]; [congruence | now apply I].
  - now destruct u.
Qed.

Section Scan.
Variables (os : bytes) (ls : longs) (sh : list (Z * bool)).
Notation y := (mkSyntax sh ls).
Hypothesis N : NoDup (map (fun o : bytes * bool * Z => fst (fst o)) ls).
Hypothesis T : forall c a, short_kind os c = Some a <-> In (c, a) sh.
Hypothesis D0 : short_kind os DASH = None.

Lemma cluster_flags cs w : flags y cs -> cluster os (cs ++ w) = first (map ev (map plain cs)) (cluster os w).
Proof using T.
  intros F. induction cs as [|c r IH]; [cbn [app map]; unfold first; cbn [app]; now destruct (cluster os w)|].
  cbn [app cluster]. rewrite (proj2 (T c false) (Forall_inv F)). rewrite (IH (Forall_inv_tail F)). unfold first. reflexivity.
Qed.
Lemma cluster_inv w :
  (flags y w /\ cluster os w = (map ev (map plain w), None)) \/
  (exists cs c, w = cs ++ [c] /\ flags y cs /\ In (c, true) sh /\ cluster os w = (map ev (map plain cs), Some c)) \/
  (exists cs c v, w = cs ++ c :: v /\ v <> [] /\ flags y cs /\ In (c, true) sh /\
     cluster os w = (map ev (map plain cs ++ [(c, Some v)]), None)) \/
  (exists e, cluster os w = (e, None) /\ In EBad e).
Proof using T.
  induction w as [|c r IH].
  { left. split; [constructor | reflexivity]. }
  cbn [cluster]. destruct (short_kind os c) as [[|]|] eqn:K.
  - apply T in K. destruct r as [|d s].
    + right; left. exists [], c. split; [reflexivity|]. split; [constructor|]. split; [exact K | reflexivity].
    + right; right; left. exists [], c, (d :: s). split; [reflexivity|]. split; [discriminate|]. split; [constructor|]. split; [exact K | reflexivity].
  - apply T in K. destruct IH as [[F E]|[(cs & d & -> & F & I & E)|[(cs & d & v & -> & V & F & I & E)|(e & E & I)]]]; rewrite E.
    + left. split; [now constructor | reflexivity].
    + right; left. exists (c :: cs), d. split; [reflexivity|]. split; [now constructor|]. split; [exact I | reflexivity].
    + right; right; left. exists (c :: cs), d, v. split; [reflexivity|]. split; [exact V|]. split; [now constructor|]. split; [exact I | reflexivity].
    + right; right; right. exists (EOpt c None :: e). split; [reflexivity | now right].
  - right; right; right. exists [EBad]. split; [reflexivity | now left].
Qed.

Lemma scan_word c2 body r : c2 <> DASH ->
  scan os ls ((DASH :: c2 :: body) :: r) =
    match cluster os (c2 :: body) with
    | (e, None) => first e (scan os ls r)
    | (e, Some c) => match r with [] => (e ++ [EBad], []) | v :: r' => first (e ++ [EOpt c (Some v)]) (scan os ls r') end
    end.
Proof using. intros H. cbn [scan]. change (DASH =? DASH) with true. cbn [negb]. now rewrite (proj2 (Z.eqb_neq c2 DASH) H). Qed.
Lemma scan_long body r : body <> [] ->
  scan os ls ((DASH :: DASH :: body) :: r) =
    let (name, val) := split_eq body in
    match long_lookup ls name, val with
    | None, _ => ([EBad], [])
    | Some (true, c), Some v => first [EOpt c (Some v)] (scan os ls r)
    | Some (true, c), None => match r with [] => ([EBad], []) | v :: r' => first [EOpt c (Some v)] (scan os ls r') end
    | Some (false, c), Some _ => ([EBad], [])
    | Some (false, c), None => first [EOpt c None] (scan os ls r)
    end.
Proof using. intros H. destruct body; [congruence | reflexivity]. Qed.
Lemma scan_operand w r : operand w -> scan os ls (w :: r) = (fst (scan os ls r), w :: snd (scan os ls r)).
Proof using.
  intros O. destruct w as [|c1 [|c2 body]]; cbn [scan].
  1, 2: now destruct (scan os ls r).
  unfold operand, minus in O. rewrite (proj2 (Z.eqb_neq c1 DASH) O). cbn [negb]. now destruct (scan os ls r).
Qed.
Lemma sh_not_dash c a : In (c, a) sh -> c <> DASH.
Proof using T D0. intros I ->. apply T in I. congruence. Qed.
Lemma head_not_dash cs c v : flags y cs -> In (c, true) sh -> exists d w, cs ++ c :: v = d :: w /\ d <> DASH.
Proof using T D0.
  intros F I. destruct cs as [|d cs]; [exists c, v; split; [reflexivity | exact (sh_not_dash _ _ I)]|].
  exists d, (cs ++ c :: v). split; [reflexivity | exact (sh_not_dash _ _ (Forall_inv F))].
Qed.
Lemma first_ev l0 l (o : list bytes) x : x = (map ev l, o) -> first (map ev l0) x = (map ev (l0 ++ l), o).
Proof using. intros ->. unfold first. cbn [fst snd]. now rewrite map_app. Qed.

Lemma scan_spells ws l o : spells y ws l o -> scan os ls ws = (map ev l, o).
Proof using N T D0.
  intros S. induction S as [ | o | w ws l o O S IH | c cs ws l o F S IH | cs c v ws l o F I V S IH | cs c v ws l o F I S IH
    | n c ws l o L E Q S IH | n c v ws l o L Q S IH | n c v ws l o L E Q S IH ].
  - reflexivity.
  - reflexivity.
  - rewrite scan_operand by exact O. now rewrite IH.
  - change minus with DASH. rewrite scan_word by exact (sh_not_dash _ _ (Forall_inv F)).
    rewrite <- (app_nil_r (c :: cs)) at 1. rewrite (cluster_flags _ [] F). cbn [cluster]. unfold first at 1. cbn [fst snd].
    rewrite app_nil_r. now apply first_ev.
  - change minus with DASH. destruct (head_not_dash cs c v F I) as (d & w & E & H). rewrite E, scan_word by exact H. rewrite <- E.
    rewrite (cluster_flags _ _ F). cbn [cluster]. rewrite (proj2 (T c true) I). destruct v as [|v0 v']; [congruence|].
    unfold first at 1. cbn [fst snd]. change [EOpt c (Some (v0 :: v'))] with (map ev [(c, Some (v0 :: v'))]). rewrite <- map_app.
    rewrite (first_ev _ l o _ IH). now rewrite <- app_assoc.
  - change minus with DASH. destruct (head_not_dash cs c [] F I) as (d & w & E & H). rewrite E, scan_word by exact H. rewrite <- E.
    rewrite (cluster_flags _ _ F). cbn [cluster]. rewrite (proj2 (T c true) I).
    unfold first at 1. cbn [fst snd]. rewrite app_nil_r. change [EOpt c (Some v)] with (map ev [(c, Some v)]). rewrite <- map_app.
    rewrite (first_ev _ l o _ IH). now rewrite <- app_assoc.
  - change minus with DASH. rewrite scan_long by exact E. rewrite split_none by exact Q. apply (long_lookup_spec ls N sh) in L. rewrite L.
    change [EOpt c None] with (map ev [(c, None)]). rewrite (first_ev _ _ _ _ IH). reflexivity.
  - change minus with DASH. rewrite scan_long by now destruct n. change equals with EQUALS. rewrite split_some by exact Q.
    apply (long_lookup_spec ls N sh) in L. rewrite L. change [EOpt c (Some v)] with (map ev [(c, Some v)]). rewrite (first_ev _ _ _ _ IH). reflexivity.
  - change minus with DASH. rewrite scan_long by exact E. rewrite split_none by exact Q. apply (long_lookup_spec ls N sh) in L. rewrite L.
    change [EOpt c (Some v)] with (map ev [(c, Some v)]). rewrite (first_ev _ _ _ _ IH). reflexivity.
Qed.

Lemma scan_total_n n ws : (length ws <= n)%nat ->
  (exists l, fst (scan os ls ws) = map ev l /\ spells y ws l (snd (scan os ls ws))) \/ In EBad (fst (scan os ls ws)).
Proof using N T D0.
  revert ws. induction n as [|n IH]; intros ws B.
  { destruct ws; [|cbn in B; lia]. left. exists []. split; [reflexivity | constructor]. }
  destruct ws as [|w r]; [left; exists []; split; [reflexivity | constructor]|].
  cbn [length] in B. assert (Br : (length r <= n)%nat) by lia.
  assert (Br' : forall v r', r = v :: r' -> (length r' <= n)%nat) by (intros v r' ->; cbn [length] in Br; lia).
  assert (Ext : forall l0 ws', (length ws' <= n)%nat -> (forall l o, spells y ws' l o -> spells y (w :: r) (l0 ++ l) o) ->
    forall z, z = first (map ev l0) (scan os ls ws') ->
    (exists l, fst z = map ev l /\ spells y (w :: r) l (snd z)) \/ In EBad (fst z)).
  { intros l0 ws' B' K z ->. destruct (IH ws' B') as [(l & E & S)|Bad].
    - left. exists (l0 ++ l). unfold first. cbn [fst snd]. rewrite E, map_app. split; [reflexivity | now apply K].
    - right. unfold first. cbn [fst]. apply in_or_app. now right. }
  destruct w as [|c1 [|c2 body]].
  1, 2: rewrite scan_operand by exact I; cbn [fst snd]; destruct (IH r Br) as [(l & E & S)|Bad];
    [left; exists l; split; [exact E | now apply sp_operand] | now right].
  destruct (Z.eqb_spec c1 DASH) as [->|D1].
  2:{ rewrite scan_operand by exact D1. cbn [fst snd]. destruct (IH r Br) as [(l & E & S)|Bad];
      [left; exists l; split; [exact E | now apply sp_operand] | now right]. }
  destruct (Z.eqb_spec c2 DASH) as [->|D2].
  - destruct body as [|b0 bs]; [left; exists []; split; [reflexivity | apply sp_rest]|].
    remember (b0 :: bs) as body eqn:Eb. assert (Hb : body <> []) by (subst; discriminate).
    change (@cons bytes (DASH :: DASH :: body) r) with (@cons (list Z) (DASH :: DASH :: body) r). rewrite (scan_long body r Hb). destruct (split_eq body) as [name val] eqn:Sp. apply split_inv in Sp as [Q W].
    destruct (long_lookup ls name) as [[[|] c]|] eqn:L.
    + apply (long_lookup_spec ls N sh) in L. destruct val as [v|].
      * apply (Ext [(c, Some v)] r Br); [|reflexivity]. intros l o S. rewrite W. now apply sp_long_joined.
      * destruct r as [|v r']; [right; now left|].
        apply (Ext [(c, Some v)] r' (Br' v r' eq_refl)); [|reflexivity]. intros l o S. rewrite W in *. now apply sp_long_next.
    + apply (long_lookup_spec ls N sh) in L. destruct val as [v|]; [right; now left|].
      apply (Ext [(c, None)] r Br); [|reflexivity]. intros l o S. rewrite W in *. now apply sp_long.
    + right; now left.
  - change (@cons bytes (DASH :: c2 :: body) r) with (@cons (list Z) (DASH :: c2 :: body) r). rewrite (scan_word c2 body r D2).
    destruct (cluster_inv (c2 :: body)) as [[F E]|[(cs & c & W & F & I & E)|[(cs & c & v & W & V & F & I & E)|(e & E & I)]]]; rewrite E.
    + apply (Ext (map plain (c2 :: body)) r Br); [|reflexivity]. intros l o S. now apply sp_flags.
    + destruct r as [|v r']; [right; cbn [fst]; apply in_or_app; right; now left|].
      apply (Ext (map plain cs ++ [(c, Some v)]) r' (Br' v r' eq_refl)).
      * intros l o S. rewrite W. rewrite <- app_assoc. now apply sp_next.
      * change [EOpt c (Some v)] with (map ev [(c, Some v)]). now rewrite map_app.
    + apply (Ext (map plain cs ++ [(c, Some v)]) r Br); [|reflexivity]. intros l o S. rewrite W. rewrite <- app_assoc. now apply sp_joined.
    + right. unfold first. cbn [fst]. apply in_or_app. now left.
Qed.
Lemma scan_total ws :
  (exists l, fst (scan os ls ws) = map ev l /\ spells y ws l (snd (scan os ls ws))) \/ In EBad (fst (scan os ls ws)).
Proof using N T D0. exact (scan_total_n (length ws) ws (le_n _)). Qed.
Lemma no_ebad l : ~ In EBad (map ev l).
Proof using. intros H. apply in_map_iff in H as ([c v] & H & _). discriminate H. Qed.
Lemma scan_iff ws l o : spells y ws l o <-> scan os ls ws = (map ev l, o).
Proof using N T D0.
  split; [apply scan_spells|]. intros E. destruct (scan_total ws) as [(l' & E1 & S)|Bad].
  - rewrite E in E1, S. cbn [fst snd] in E1, S. apply ev_map_inj in E1. now subst.
  - rewrite E in Bad. exfalso. exact (no_ebad _ Bad).
Qed.
Lemma scan_unspelled ws : (forall l o, ~ spells y ws l o) -> In EBad (fst (scan os ls ws)).
Proof using N T D0. intros H. destruct (scan_total ws) as [(l' & E1 & S)|Bad]; [exfalso; exact (H _ _ S) | exact Bad]. Qed.
End Scan.

(* ---- the eight commands ---- *)
Definition os_of (v : verb) : bytes :=
  match v with Create => os_create | Add => os_add | Set_ => os_set | Delete => os_delete | Extract => os_extract | Sign => os_sign
  | Verify => os_verify | Transport => os_transport | Show => os_show | Compare => os_compare | Generate => os_generate end.
Definition ls_of (v : verb) : longs :=
  match v with Create => ls_create | Add => ls_add | Set_ => ls_set | Delete => ls_delete | Extract => ls_extract | Sign => ls_sign
  | Verify => ls_verify | Transport => ls_transport | Show => ls_show | Compare => ls_compare | Generate => ls_generate end.
Lemma short_in os c a : short_kind os c = Some a -> In c os.
Proof.
  unfold short_kind. destruct (c =? COLON); [discriminate|]. induction os as [|x r IH]; [discriminate|]. cbn [short_lookup].
  destruct (Z.eqb_spec x c) as [->|]; [now left | intros H; right; now apply IH].
Qed.
Lemma kind_iff os sh :
  forallb (fun c => match short_kind os c with Some a => existsb (fun x => (fst x =? c) && Bool.eqb (snd x) a) sh | None => true end) os = true ->
  forallb (fun x => match short_kind os (fst x) with Some a => Bool.eqb a (snd x) | None => false end) sh = true ->
  forall c a, short_kind os c = Some a <-> In (c, a) sh.
Proof.
  intros A B c a. rewrite forallb_forall in A, B. split.
  - intros K. specialize (A c (short_in _ _ _ K)). rewrite K in A. apply existsb_exists in A as ([d e] & I & E). cbn [fst snd] in E.
    apply andb_prop in E as [E1 E2]. apply Z.eqb_eq in E1. apply Bool.eqb_prop in E2. now subst.
  - intros I. specialize (B _ I). cbn [fst snd] in B. destruct (short_kind os c) as [d|]; [|discriminate]. apply Bool.eqb_prop in B. now subst.
Qed.
Fixpoint all_diff (l : list bytes) : bool := match l with [] => true | x :: r => forallb (fun z => negb (bytes_eqb x z)) r && all_diff r end.
Lemma all_diff_ok l : all_diff l = true -> NoDup l.
Proof.
  induction l as [|x r IH]; [constructor|]. cbn [all_diff]. intros H. apply andb_prop in H as [H1 H2]. constructor; [|now apply IH].
  intros I. rewrite forallb_forall in H1. specialize (H1 x I). now rewrite BaseLemmas.bytes_eqb_refl in H1.
Qed.
Lemma tables v : ls_of v = longs_of v /\ NoDup (map (fun o : bytes * bool * Z => fst (fst o)) (ls_of v)) /\
  (forall c a, short_kind (os_of v) c = Some a <-> In (c, a) (short_of v)) /\ short_kind (os_of v) DASH = None.
Proof.
  split; [|split; [|split]].
  - destruct v; reflexivity.
  - apply all_diff_ok. destruct v; vm_compute; reflexivity.
  - apply kind_iff; destruct v; vm_compute; reflexivity.
  - destruct v; vm_compute; reflexivity.
Qed.
Lemma read_iff v ws l o : spells (syntax_of v) ws l o <-> scan (os_of v) (ls_of v) ws = (map ev l, o).
Proof. destruct (tables v) as (E & N & T & D). unfold syntax_of. rewrite <- E. now apply scan_iff. Qed.
Lemma read_bad v ws : (forall l o, ~ spells (syntax_of v) ws l o) -> In EBad (fst (scan (os_of v) (ls_of v) ws)).
Proof. destruct (tables v) as (E & N & T & D). unfold syntax_of. rewrite <- E. now apply scan_unspelled. Qed.
