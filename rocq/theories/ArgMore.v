(* ArgMore.v -- packages that do not exist, and packages that exist already. *)
From Coq Require Import String.
From Verif Require Import Base BaseLemmas HeaderModel CrcModel HashModel MerkleModel VerifyModel PkgModel UtilModel KeystoreModel MbedModel
  CliModel CliSpec CliArgs BspatchModel LzModel TransportModel TransportCliModel ArgModel ArgSpec ArgProofs ArgActs ArgMeans.
Local Open Scope Z_scope.
Section More.
Variables (e : env) (fs : fsys).
Ltac start S U := erewrite (reads e fs _ _ _ _ S U); [|intros ?; reflexivity]; cbv beta iota; rewrite ?arg_val, ?set_has.
Lemma nd_fail x : nothing_done fs (fail fs x).
Proof using. repeat split; discriminate. Qed.
Lemma nd_none : nothing_done fs (fs, PNothing, None).
Proof using. repeat split; discriminate. Qed.
Lemma nd_on path x k : fs path = None -> nothing_done fs (on_file fs path x k).
Proof using. intros F. unfold on_file. rewrite F. apply nd_fail. Qed.
Lemma missing v ws l path o : v <> Create -> v <> Generate -> spells (syntax_of v) ws l (path :: o) -> Forall (usable v) l -> fs path = None ->
  nothing_done fs (bpak e fs (verb_name v :: ws)).
Proof using.
  intros V G S U F. destruct v; try congruence; start S U; cbv zeta.
  - destruct (val l "m"), (val l "p"), (val l "s"), (val l "f"), (val l "e"); try apply nd_fail; try (now apply nd_on);
      repeat match goal with |- nothing_done _ (if ?b then _ else _) => destruct b end; try apply nd_none; now apply nd_on.
  - destruct (val l "m"), (val l "s"); try apply nd_fail; try (now apply nd_on); destruct (has l "k" || has l "i"); try apply nd_fail; now apply nd_on.
  - repeat match goal with |- nothing_done _ (if ?b then _ else _) => destruct b end; try apply nd_fail; now apply nd_on.
  - repeat match goal with |- nothing_done _ (if ?b then _ else _) => destruct b end; try apply nd_fail; try apply nd_none;
      unfold on_file; rewrite F; destruct (val l "o"); apply nd_fail.
  - destruct (val l "f"); now apply nd_on.
  - now apply nd_on.
  - destruct (_ || _ || _); [apply nd_fail|]. destruct (_ || _).
    + unfold cli_transport, t_open, open_rw. rewrite F. apply nd_fail.
    + unfold t_open, open_rw. rewrite F. apply nd_fail.
  - rewrite F. apply nd_fail.
  - destruct o; [apply nd_fail|]. rewrite F. apply nd_fail.
Qed.
Lemma keeps_package ws l path o f : spells (syntax_of Create) ws l (path :: o) -> Forall (usable Create) l -> fs path = Some f ->
  has l "Y" = false -> en_answer e <> Some (ch "Y") -> nothing_done fs (bpak e fs (verb_name Create :: ws)).
Proof using.
  intros S U F Y A. start S U. destruct (hash_arg _); [|apply nd_fail]. destruct (sign_arg _); [|apply nd_fail]. rewrite F, Y. cbn [negb andb].
  destruct (en_answer e) as [c|]; [|apply nd_fail]. destruct (Z.eqb_spec c (ch "Y")) as [->|N]; [congruence | apply nd_fail].
Qed.
End More.
