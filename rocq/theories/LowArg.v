(* LowArg.v -- codes of the command line *)
From Coq Require Import String.
From Verif Require Import LowTac LowBase LowPkg LowTransport HeaderModel HashModel MerkleModel VerifyModel PkgModel KeystoreModel MbedModel CliModel
  LzModel TransportModel TransportCliModel ViewModel ArgModel.

Local Open Scope Z_scope.

Definition olow (x : outcome) : Prop := match snd x with Some r => low r | None => True end.
Lemma olow_fail : forall fs c, (-30 <=? c) && (c <=? -1) = true -> olow (fail fs c).
Proof. intros fs c H. unfold olow, fail. cbn [snd]. apply low_err. exact H. Qed.
Lemma walk_low : forall cases bad l p r, walk cases bad l = Some (p, r) -> low r.
Proof.
  intros cases bad. induction l as [| [c v |] l IH]; intros p r E; cbn [walk] in E; [discriminate | |].
  - destruct (c =? ch "h"%string); [assert (r = Ok tt) by congruence; subst r; exact I |].
    destruct (existsb (Z.eqb c) cases); [destruct (bad c v); [| eapply IH; exact E] |]; assert (X : r = Err (-1)) by congruence; rewrite X; apply low_err; reflexivity.
  - assert (X : r = Err (-1)) by congruence. rewrite X. apply low_err. reflexivity.
Qed.
Section Act.
Variable e : env.
Lemma olow_action_all : forall os ls cases bad fs ws k, (forall l ops, olow (k l ops)) -> olow (action_all os ls cases bad fs ws k).
Proof.
  intros os ls cases bad fs ws k K. unfold action_all. destruct (scan os ls ws) as [l ops].
  destruct (walk cases bad l) as [[p r] |] eqn:W; [| apply K]. apply walk_low in W. exact W.
Qed.
Lemma olow_action : forall os ls cases bad fs ws k, (forall l path, olow (k l path)) -> olow (action os ls cases bad fs ws k).
Proof. intros os ls cases bad fs ws k K. unfold action. apply olow_action_all. intros l [| path r]; [apply olow_fail; reflexivity | apply K]. Qed.
Lemma olow_on_file : forall fs path m k, (-30 <=? m) && (m <=? -1) = true -> (forall f, low (snd (k f))) -> olow (on_file fs path m k).
Proof.
  intros fs path m k M K. unfold on_file. destruct (fs path) as [f |]; [| apply olow_fail; exact M].
  specialize (K f). destruct (k f) as [[f1 out] r]. exact K.
Qed.
Lemma low_open_and_fail : forall c f, (-30 <=? c) && (c <=? -1) = true -> low (snd (open_and_fail e c f)).
Proof. intros c f H. unfold open_and_fail. apply low_with_package. intros p. cbn [snd]. apply low_err. exact H. Qed.
Lemma low_open_and_fail' : forall A c f, low (@Err A c) -> low (snd (open_and_fail e c f)).
Proof. intros A c f H. unfold open_and_fail. apply low_with_package. intros p. exact H. Qed.
Lemma low_load_public : forall fs path, low (load_public e fs path).
Proof. intros. unfold load_public. lows. Qed.
Hint Resolve low_load_public : low.
Hint Extern 1 (low_fn2 _) => (intros ? ?; lows) : low.

Ltac o1 :=
  match goal with
  | |- olow (fail _ _) => first [apply olow_fail; reflexivity | assumption | (unfold olow, fail; cbn [snd]; eapply low_move; eassumption)]
  | |- olow (action _ _ _ _ _ _ _) => apply olow_action; intros
  | |- olow (action_all _ _ _ _ _ _ _) => apply olow_action_all; intros
  | |- olow (on_file _ _ _ _) => apply olow_on_file; [reflexivity | intros]
  | |- low (snd (open_and_fail _ (Err _) _)) => fail
  | |- low (snd (open_and_fail _ _ _)) => first [apply low_open_and_fail; reflexivity | eapply low_open_and_fail'; eassumption]
  | |- low (snd ((match ?x with _ => _ end) _)) => low_case x
  | |- olow (_, _, None) => exact I
  | |- olow (_, _, Some _) => unfold olow; cbn [snd]
  | |- olow (match ?x with _ => _ end) => low_case x
  | |- olow (let _ := _ in _) => cbv zeta
  | |- low _ => low1
  end.
Ltac os := repeat o1.
Lemma low_act_create : forall fs ws, olow (act_create e fs ws).
Proof.
  intros. unfold act_create. os.
Qed.
Lemma low_act_add : forall fs ws, olow (act_add e fs ws).
Proof.
  intros. unfold act_add. os.
Qed.
Lemma low_act_set : forall fs ws, olow (act_set fs ws).
Proof. intros. unfold act_set. os. Qed.
Lemma low_act_delete : forall fs ws, olow (act_delete e fs ws).
Proof. intros. unfold act_delete. os. Qed.
Lemma olow_to_file : forall x o, olow x -> olow (to_file x o).
Proof. intros [[fs1 p] r] [o |] H; [destruct p |]; exact H. Qed.
Lemma low_act_extract : forall fs ws, olow (act_extract e fs ws).
Proof. intros. unfold act_extract. os; apply olow_to_file; os. Qed.
Lemma low_act_show : forall fs ws, olow (act_show e fs ws).
Proof. intros. unfold act_show. os. Qed.
Lemma low_act_compare : forall fs ws, olow (act_compare e fs ws).
Proof. intros. unfold act_compare. os. Qed.
Lemma low_act_generate : forall fs ws, olow (act_generate e fs ws).
Proof. intros. unfold act_generate. os. Qed.
Hypothesis Hsg : low_sg (en_sg e).
Lemma low_act_sign : forall fs ws, olow (act_sign e fs ws).
Proof using Hsg. intros. unfold act_sign. os. apply low_cli_sign; [exact Hsg | lows]. Qed.
Lemma low_act_verify : forall fs ws, olow (act_verify e fs ws).
Proof using Hsg. intros. unfold act_verify. os. Qed.
Hypothesis Hsha : good_hash (en_sha e).
Lemma low_act_transport : forall fs ws, readable fs -> olow (act_transport e fs ws).
Proof using Hsha. intros fs ws R. unfold act_transport. apply olow_action. intros l path. cbv zeta.
  match goal with |- olow (if ?b then _ else _) => destruct b; [apply olow_fail; reflexivity |] end.
  match goal with |- olow (if ?b then _ else _) => destruct b; [| os] end.
  match goal with |- olow (let (_, _) := ?x in _) => destruct x as [fs1 r] eqn:T end.
  unfold olow. cbn [snd]. destruct r as [r |]; [| exact I]. eapply low_cli_transport; [exact Hsha | exact R |]. rewrite T. reflexivity.
Qed.
Lemma low_bpak : forall fs ws, readable fs -> olow (bpak e fs ws).
Proof using Hsg Hsha.
  intros fs ws R.
  assert (D : forall verb rest, olow (dispatch e verb fs rest)).
  { intros verb rest. unfold dispatch.
    repeat match goal with |- olow (if ?b then _ else _) => destruct b end;
      first [apply low_act_create | apply low_act_add | apply low_act_show | apply low_act_sign | apply low_act_verify | apply low_act_generate
            | apply low_act_transport; exact R | apply low_act_set | apply low_act_compare | apply low_act_extract | apply low_act_delete | apply olow_fail; reflexivity]. }
  unfold bpak. destruct ws as [| w rest]; [exact I |]. destruct (scan _ _ [w]) as [[| [c v |] l] ops].
  - destruct ops as [| verb r]; [destruct rest as [| verb r]; [apply olow_fail; reflexivity |] |]; apply D.
  - exact I.
  - apply olow_fail. reflexivity.
Qed.
End Act.
