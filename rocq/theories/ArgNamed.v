(* ArgNamed.v -- only files named on the command line change. *)
From Coq Require Import String.
From Verif Require Import Base BaseLemmas HeaderModel CrcModel HashModel MerkleModel VerifyModel PkgModel UtilModel KeystoreModel MbedModel
  CliModel CliSpec CliArgs BspatchModel LzModel TransportModel TransportCliModel ViewModel ArgModel ArgSpec ArgProofs ArgActs ArgMeans.
Local Open Scope Z_scope.
Definition ends (w p : bytes) : Prop := exists a, w = a ++ p.
Definition named (ws : list bytes) (p : bytes) : Prop := exists w, In w ws /\ ends w p.
Lemma ends_refl w : ends w w.
Proof. now exists []. Qed.
Lemma ends_cons c w p : ends w p -> ends (c :: w) p.
Proof. intros [a ->]. now exists (c :: a). Qed.
Lemma named_cons w ws p : named ws p -> named (w :: ws) p.
Proof. intros (x & I & E). exists x. split; [now right | exact E]. Qed.
Lemma named_in w ws : In w ws -> named ws w.
Proof. intros I. exists w. split; [exact I | apply ends_refl]. Qed.

Section Words.
Variables (os : bytes) (ls : longs).
Lemma cluster_arg w c v : In (EOpt c (Some v)) (fst (cluster os w)) -> ends w v.
Proof using.
  induction w as [|d r IH]; [intros []|]. cbn [cluster]. destruct (short_kind os d) as [[|]|].
  - destruct r; cbn [fst]; [intros []|]. intros [H|[]]. injection H as -> <-. apply ends_cons, ends_refl.
  - destruct (cluster os r) as [e p]. cbn [fst] in *. intros [H|H]; [discriminate|]. apply ends_cons. now apply IH.
  - intros [H|[]]. discriminate.
Qed.
Lemma split_ends w n v : split_eq w = (n, Some v) -> ends w v.
Proof using. intros H. apply split_inv in H as [_ ->]. exists (n ++ [EQUALS]). now rewrite <- app_assoc. Qed.
Definition fine (ws : list bytes) (x : list oev * list bytes) : Prop :=
  (forall c v, In (EOpt c (Some v)) (fst x) -> named ws v) /\ (forall w, In w (snd x) -> In w ws).
Lemma fine_bad ws e : (forall c v, In (EOpt c (Some v)) e -> named ws v) -> fine ws (e ++ [EBad], []).
Proof using.
  intros H. split; [|intros w []]. cbn [fst]. intros c v I. apply in_app_iff in I as [I|[I|[]]]; [now apply (H c) | discriminate].
Qed.
Lemma fine_first ws1 ws2 e x : fine ws1 x -> (forall w, In w ws1 -> In w ws2) -> (forall c v, In (EOpt c (Some v)) e -> named ws2 v) ->
  fine ws2 (first e x).
Proof using.
  intros [A B] M E. split; unfold first; cbn [fst snd].
  - intros c v I. apply in_app_iff in I as [I|I]; [now apply (E c)|]. destruct (A c v I) as (w & J & K). exists w. split; [now apply M | exact K].
  - intros w I. apply M, B, I.
Qed.
Lemma one_arg ws d (u v : bytes) c : named ws u -> In (EOpt c (Some v)) [EOpt d (Some u)] -> named ws v.
Proof using. intros N [H|[]]. injection H as _ <-. exact N. Qed.
Lemma scan_fine_n n ws : (length ws <= n)%nat -> fine ws (scan os ls ws).
Proof using.
  revert ws. induction n as [|n IH]; intros ws L.
  { destruct ws; [|cbn in L; lia]. split; intros; contradiction. }
  destruct ws as [|w r]; [split; intros; contradiction|]. cbn [length] in L. assert (Lr : (length r <= n)%nat) by lia.
  assert (Op : fine (w :: r) (fst (scan os ls r), w :: snd (scan os ls r))).
  { destruct (IH r Lr) as [A B]. split; cbn [fst snd].
    - intros c v I. apply named_cons. now apply (A c).
    - intros x [->|I]; [now left | right; now apply B]. }
  assert (Nx : forall v r', r = v :: r' -> (length r' <= n)%nat /\ named (w :: r) v /\ (forall x, In x r' -> In x (w :: r))).
  { intros v r' ->. cbn [length] in Lr. split; [lia|]. split; [apply named_in; right; now left | intros x I; right; now right]. }
  assert (Here : forall p, ends w p -> named (w :: r) p) by (intros p E; exists w; split; [now left | exact E]).
  assert (Sub : forall x, In x r -> In x (w :: r)) by (intros x I; now right).
  destruct w as [|c1 [|c2 body]].
  1, 2: now rewrite scan_operand by exact I.
  destruct (Z.eqb_spec c1 DASH) as [->|D1]; [|now rewrite scan_operand by exact D1].
  destruct (Z.eqb_spec c2 DASH) as [->|D2].
  - destruct body as [|b0 bs]; [split; [intros c v []|]; intros x I; now right|].
    remember (b0 :: bs) as body eqn:Eb. assert (Hb : body <> []) by (subst; discriminate).
    change (@cons bytes (DASH :: DASH :: body) r) with (@cons (list Z) (DASH :: DASH :: body) r). rewrite (scan_long os ls body r Hb).
    destruct (split_eq body) as [name val] eqn:Sp. destruct (long_lookup ls name) as [[[|] c]|].
    + destruct val as [v|].
      * apply (fine_first r); [now apply IH | exact Sub |]. intros d u. apply one_arg, Here. do 2 apply ends_cons. exact (split_ends _ _ _ Sp).
      * destruct r as [|v r']; [exact (fine_bad _ [] (fun _ _ F => match F with end))|].
        destruct (Nx v r' eq_refl) as (L' & N' & S'). apply (fine_first r'); [now apply IH | exact S' |]. intros d u. now apply one_arg.
    + destruct val as [v|]; [exact (fine_bad _ [] (fun _ _ F => match F with end))|].
      apply (fine_first r); [now apply IH | exact Sub |]. intros d u [H|[]]. discriminate.
    + exact (fine_bad _ [] (fun _ _ F => match F with end)).
  - change (@cons bytes (DASH :: c2 :: body) r) with (@cons (list Z) (DASH :: c2 :: body) r). rewrite (scan_word os ls c2 body r D2).
    assert (C : forall c v, In (EOpt c (Some v)) (fst (cluster os (c2 :: body))) -> named ((DASH :: c2 :: body) :: r) v).
    { intros c v I. apply Here, ends_cons. now apply (cluster_arg _ c). }
    destruct (cluster os (c2 :: body)) as [e [c|]]; cbn [fst] in C.
    + destruct r as [|v r']; [now apply fine_bad|].
      destruct (Nx v r' eq_refl) as (L' & N' & S'). apply (fine_first r'); [now apply IH | exact S' |].
      intros d u I. apply in_app_iff in I as [I|I]; [now apply (C d) | now apply (one_arg _ c v u d)].
    + apply (fine_first r); [now apply IH | exact Sub | exact C].
Qed.
Lemma scan_fine ws : fine ws (scan os ls ws).
Proof using. exact (scan_fine_n (length ws) ws (le_n _)). Qed.
End Words.

Lemma given_in l c v : given l c = Some (Some v) -> In (EOpt c (Some v)) l.
Proof.
  induction l as [|[d u|] r IH]; [discriminate| |intros H; right; now apply IH]. cbn [given]. destruct (given r c) as [x|].
  - intros H. right. now apply IH.
  - destruct (Z.eqb_spec d c) as [->|]; [|discriminate]. intros H. injection H as ->. now left.
Qed.
Lemma arg_in l c v : arg l c = Some v -> In (EOpt c (Some v)) l.
Proof. unfold arg. intros H. apply given_in. destruct (given l c) as [[b|]|]; congruence. Qed.

Section Only.
Variables (e : env) (fs : fsys) (S : bytes -> Prop).
Definition only (a : outcome) : Prop := forall p, fst (fst a) p <> fs p -> S p.
Lemma only_same p r : only (fs, p, r).
Proof using. intros q H. now destruct H. Qed.
Lemma put_only (fs1 : fsys) path f : S path -> (forall p, fs1 p <> fs p -> S p) -> forall p, fs_put fs1 path f p <> fs p -> S p.
Proof using.
  intros P H p. unfold fs_put. destruct (bytes_eqb p path) eqn:B; [|apply H]. apply BaseLemmas.bytes_eqb_eq in B. now subst.
Qed.
Lemma only_on path x k : S path -> only (on_file fs path x k).
Proof using.
  intros P. unfold on_file. destruct (fs path) as [f|]; [|apply only_same]. destruct (k f) as [[f1 out] r]. intros p. cbn [fst].
  apply put_only; [exact P | now intros q []].
Qed.
Lemma only_to a o : only a -> (forall out, o = Some out -> S out) -> only (to_file a o).
Proof using.
  intros H O. destruct o as [out|]; [|exact H]. destruct a as [[fs1 pr] r]. destruct pr; try exact H. cbn [to_file]. intros p. cbn [fst].
  apply put_only; [now apply O | exact H].
Qed.
Lemma only_open sha fs1 path : S path -> (forall p, fs1 p <> fs p -> S p) -> forall p, fst (open_rw sha fs1 path) p <> fs p -> S p.
Proof using.
  intros P H p. unfold open_rw. destruct (fs1 path) as [f|]; [|apply H]. destruct (pkg_open sha true f) as [f1 r]. cbn [fst]. now apply put_only.
Qed.
Lemma only_t_open sha path o : S path -> (forall q, o = Some q -> S q) -> forall p, fst (t_open sha fs path o) p <> fs p -> S p.
Proof using.
  intros P O p. unfold t_open. pose proof (only_open sha fs path P (fun q N => match N eq_refl with end)) as A.
  destruct (open_rw sha fs path) as [fs1 [u|x| |]]; cbn [fst] in *; try apply A.
  destruct o as [q|]; [|apply A]. pose proof (only_open sha fs1 q (O q eq_refl) A) as B.
  destruct (open_rw sha fs1 q) as [fs2 [u2|x| |]]; cbn [fst] in *; apply B.
Qed.
Lemma only_transport bld sha sais ga v path o out : S path -> (forall q, o = Some q -> S q) -> (forall q, out = Some q -> S q) ->
  forall p, fst (cli_transport bld sha sais ga fs v path o out) p <> fs p -> S p.
Proof using.
  intros P O Q p. unfold cli_transport. pose proof (only_t_open sha path o P O) as A.
  destruct (t_open sha fs path o) as [fs1 [[u q]|x| |]]; cbn [fst] in *; try apply A.
  destruct out as [w|]; [|apply A].
  assert (B : forall p, fst (open_new sha fs1 w) p <> fs p -> S p).
  { intros z. unfold open_new. destruct (pkg_open sha true []) as [f1 r]. cbn [fst]. apply put_only; [now apply Q | exact A]. }
  destruct (open_new sha fs1 w) as [fs2 [u2|x| |]]; cbn [fst] in *; try apply B.
  destruct (_ || _); [apply B|]. destruct (t_run _ _ _ _ _ _ _ _) as [f r]. cbn [fst]. apply put_only; [now apply Q | exact B].
Qed.
End Only.

Section Named.
Variables (e : env) (fs : fsys).
Lemma named_action os ls cases bad ws k :
  (forall l ops, fine ws (l, ops) -> only fs (named ws) (k l ops)) -> only fs (named ws) (action_all os ls cases bad fs ws k).
Proof using.
  intros K. unfold action_all. pose proof (scan_fine os ls ws) as F. destruct (scan os ls ws) as [l ops].
  destruct (walk cases bad l) as [[p r]|]; [apply only_same | now apply K].
Qed.
Lemma fine_arg ws l ops c : fine ws (l, ops) -> forall q, arg l c = Some q -> named ws q.
Proof using. intros [A _] q H. exact (A c q (arg_in _ _ _ H)). Qed.
Ltac split_if := repeat match goal with |- only _ _ (if ?b then _ else _) => destruct b end.
Ltac close P := first [apply only_same | apply only_on; exact P].
Lemma named_act v ws : only fs (named ws) (act_of e fs v ws).
Proof using.
  destruct v; cbn [act_of]; unfold act_create, act_add, act_set, act_delete, act_extract, act_sign, act_verify, act_transport, act_show, act_compare,
    act_generate, action; apply named_action; intros l ops F; try (destruct ops as [|path o]; [apply only_same|];
    assert (P : named ws path) by (apply named_in; apply (proj2 F); now left)); cbv zeta.
  - destruct (hash_arg _); [|apply only_same]. destruct (sign_arg _); [|apply only_same]. destruct (_ && _); [apply only_same|].
    destruct (cli_create _ _ _ []) as [[f1 out] r]. intros p. cbn [fst]. apply put_only; [exact P | now intros q []].
  - destruct (arg l (ch "m")), (arg l (ch "p")), (arg l (ch "s")), (arg l (ch "f")), (arg l (ch "e")); split_if; close P.
  - destruct (arg l (ch "m")), (arg l (ch "s")); split_if; close P.
  - split_if; close P.
  - split_if; try apply only_same; (apply only_to; [close P | apply (fine_arg ws l (path :: o)); exact F]).
  - destruct (arg l (ch "f")); close P.
  - close P.
  - split_if; [apply only_same| |].
    + pose proof (only_transport fs (named ws) (en_bld e) (en_sha e) (en_sais e) (en_garbage e) (if set_p l (ch "E") then TEncode else TDecode) path
        (arg l (ch "O")) (arg l (ch "o")) P (fine_arg ws l (path :: o) _ F) (fine_arg ws l (path :: o) _ F)) as T.
      destruct (cli_transport _ _ _ _ fs _ path _ _) as [fs1 r]. exact T.
    + pose proof (only_t_open fs (named ws) (en_sha e) path (arg l (ch "O")) P (fine_arg ws l (path :: o) _ F)) as T.
      destruct (t_open _ fs path _) as [fs1 [[p q]|x| |]]; try exact T.
      destruct (set_p l (ch "a")); [|exact T]. destruct (arg l (ch "e")); [|exact T]. destruct (arg l (ch "d")); [|exact T].
      destruct (add_transport_meta _ _ _ _) as [h1 [u|x| |]]; try exact T. intros z. cbn [fst]. apply put_only; [exact P | exact T].
  - destruct (fs path); [|apply only_same]. destruct (cli_show _ _ _ _ _). apply only_same.
  - destruct o as [|b o]; [apply only_same|]. destruct (fs path), (fs b); try apply only_same. destruct (cli_compare _ _ _). apply only_same.
  - split_if; try apply only_same; destruct o as [|x o]; try apply only_same. destruct (arg l (ch "n")); [|apply only_same].
    destruct (fs x); [|apply only_same]. destruct (cli_generate _ _). apply only_same.
Qed.
Lemma dispatch_some verb ws : (exists v, verb = verb_name v /\ dispatch e verb fs ws = act_of e fs v ws) \/ dispatch e verb fs ws = fail fs (-1).
Proof using.
  unfold dispatch.
  assert (K : forall v x y, verb_name v = bytes_of x -> act_of e fs v ws = y -> forall z, ((exists v, verb = verb_name v /\ z = act_of e fs v ws) \/ z = fail fs (-1)) ->
    (exists v, verb = verb_name v /\ (if bytes_eqb verb (bytes_of x) then y else z) = act_of e fs v ws) \/ (if bytes_eqb verb (bytes_of x) then y else z) = fail fs (-1)).
  { intros v x y A B z Z. destruct (bytes_eqb verb (bytes_of x)) eqn:D; [|exact Z]. apply BaseLemmas.bytes_eqb_eq in D. left. exists v.
    split; [now rewrite D, A | now symmetry]. }
  cbv zeta. apply (K Create); try reflexivity. apply (K Add); try reflexivity. apply (K Show); try reflexivity. apply (K Sign); try reflexivity.
  apply (K Verify); try reflexivity. apply (K Generate); try reflexivity. apply (K Transport); try reflexivity. apply (K Set_); try reflexivity.
  apply (K Compare); try reflexivity. apply (K Extract); try reflexivity. apply (K Delete); try reflexivity. now right.
Qed.
Lemma named_dispatch verb ws : only fs (named ws) (dispatch e verb fs ws).
Proof using. destruct (dispatch_some verb ws) as [(v & _ & ->)| ->]; [apply named_act | apply only_same]. Qed.
Lemma only_named ws : only fs (named ws) (bpak e fs ws).
Proof using.
  destruct ws as [|w rest]; [apply only_same|].
  assert (K : forall verb r, (forall x, In x r -> In x (w :: rest)) -> only fs (named (w :: rest)) (dispatch e verb fs r)).
  { intros verb r M p H. destruct (named_dispatch verb r p H) as (x & I & E). exists x. split; [now apply M | exact E]. }
  unfold bpak. destruct (scan _ _ [w]) as [[|[c v|] l] [|verb o]]; try apply only_same.
  - destruct rest as [|verb r]; [apply only_same|]. apply K. intros x I. now right.
  - apply K. intros x I. now right.
Qed.
Lemma readers v ws : In v [Show; Compare; Generate] -> fst (fst (bpak e fs (verb_name v :: ws))) = fs.
Proof using.
  intros I. rewrite bpak_act. destruct I as [<-|[<-|[<-|[]]]]; cbn [act_of]; unfold act_show, act_compare, act_generate, action, action_all;
    destruct (scan _ _ ws) as [l ops]; destruct (walk _ _ l) as [[p r]|]; try reflexivity; destruct ops as [|a [|b o]]; try reflexivity.
  - destruct (fs a); [|reflexivity]. now destruct (cli_show _ _ _ _ _).
  - destruct (fs a); [|reflexivity]. now destruct (cli_show _ _ _ _ _).
  - destruct (fs a), (fs b); try reflexivity. now destruct (cli_compare _ _ _).
  - destruct (bytes_eqb a _); [reflexivity|]. now destruct (bytes_eqb a _).
  - destruct (bytes_eqb a _); [reflexivity|]. destruct (bytes_eqb a _); [|reflexivity]. destruct (arg l (ch "n")); [|reflexivity].
    destruct (fs b); [|reflexivity]. now destruct (cli_generate _ _).
Qed.
End Named.
