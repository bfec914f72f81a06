(* CliWitness.v -- concrete runs of the command line tool, and where it fails *)
From Coq Require Import String.
From Verif Require Import BaseLemmas HeaderModel HeaderSpec CrcModel HashModel MerkleModel MerkleSpec MerkleApi VerifyModel VerifySpec VerifyWitness
  PkgModel PkgSpec PkgHistory UtilModel UtilSpec CliModel CliSpec CliArgs CliNumbers CliProofs CliSign.
Local Open Scope Z_scope.
Local Open Scope list_scope.

Definition b (s : string) : bytes := bytes_of s.
Definition new : cmd := CCreate None None.
Definition rs (xs : list (option bytes * res unit)) : list (res unit) := map snd xs.
Definition last_of (xs : list (option bytes * res unit)) : option bytes * res unit := last xs (None, Stuck).

Lemma new_stored : stored toy_sha (fst (run_cmds toy_sha [new] [])) (mkWorld 1 2 0 0 [] [] []).
Proof.
  unfold new. cbn [run_cmds run_cmd]. pose proof (create_ok toy_sha None None [] toy_sha_good) as C.
  destruct (cli_create toy_sha None None []) as [[f' out] r]. cbn [fst]. destruct C as (_ & C). cbn [hash_named sign_named] in C.
  destruct C as (_ & p & E & S). apply stored_st. eauto.
Qed.

(* a session *)
Definition cw_block : bytes := repeat 7 (Z.to_nat 4096).
Definition cw_salt : bytes := repeat 5 (Z.to_nat 32).
Definition session : list cmd :=
  [ new;
    CAddMeta (b "bpak-package") None (FromString (b "0888b0fa-9c48-4524-9845-06a641b61edd")) (Some (b "uuid"));
    CAddMeta (b "version") None (FromString (b "42")) (Some (b "integer"));
    CAddPart (b "kernel") (b "some bytes") false;
    CAddMerkle (b "fs") cw_block cw_salt false;
    CTransportAdd (b "fs") (b "bsdiff") (b "bspatch");
    CSetMeta (b "version") (b "-0x10") (Some (b "integer"));
    CSetIds (Some (b "0x1234")) (Some (b "my-keystore"));
    CAddPart (b "kernel") (b "again") true;
    CExtractPart (b "kernel");
    CExtractMeta (b "version") None;
    CDelete (b "0xdead") false ].
Lemma session_runs : snd (run_cmds toy_sha session []) =
  [ (None, Ok tt); (None, Ok tt); (None, Ok tt); (None, Ok tt); (None, Ok tt); (None, Ok tt); (None, Ok tt); (None, Ok tt);
    (None, Err E_EXISTS); (Some (b "some bytes"), Ok tt); (Some [240; 255; 255; 255; 255; 255; 255; 255], Ok tt); (None, Err E_NOT_FOUND) ].
Proof. vm_compute. reflexivity. Qed.
(* all of its commands are within the limits *)
Fixpoint all_fit (sha : hashfn) (w : world) (cs : list cmd) : Prop :=
  match cs with
  | [] => True
  | c :: r => fits w c = true /\ forall w' out x, spec_cmd sha w c w' out x -> all_fit sha w' r
  end.
Lemma all_fit_app sha w done c rest xs w' : all_fit sha w (done ++ c :: rest) -> spec_cmds sha w done xs w' -> fits w' c = true.
Proof.
  intros A S. induction S as [w|w d w1 out r cs xs w2 F S _ IH]; cbn [app all_fit] in A; [apply A|]. apply IH. eapply A; eauto.
Qed.

(* ---- names and numbers ---- *)
Notation run cs := (run_cmds toy_sha cs []).
Lemma hexname_unreachable :
  fits (mkWorld 1 2 0 0 [] [] []) (CAddPart (b "0x1") (b "data") false) = true /\
  snd (run [new; CAddPart (b "0x1") (b "data") false; CExtractPart (b "0x1")]) = [(None, Ok tt); (None, Ok tt); (None, Err E_NOT_FOUND)].
Proof. split; vm_compute; reflexivity. Qed.

(* ---- set ---- *)
Definition set_cs : list cmd :=
  [new; CAddMeta (b "a") None (FromString (b "x")) None; CAddMeta (b "b") None (FromString (b "0123456789abcdef")) None].
Lemma set_cuts :
  last_of (snd (run (set_cs ++ [CExtractMeta (b "b") None]))) = (Some (b "0123456789abcdef" ++ [0]), Ok tt) /\
  rs (snd (run (set_cs ++ [CSetMeta (b "a") (b "a longer text") None]))) = [Ok tt; Ok tt; Ok tt; Ok tt] /\
  last_of (snd (run (set_cs ++ [CSetMeta (b "a") (b "a longer text") None; CExtractMeta (b "b") None]))) = (Some (b "01234567" ++ zeros 9), Ok tt).
Proof. repeat split; vm_compute; reflexivity. Qed.

(* ---- undefined behaviour ---- *)
Definition long : bytes := repeat 65 (Z.to_nat 65535).
Lemma set_long : text long = true /\
  last_of (snd (run [new; CAddMeta (b "a") None (FromString (b "x")) None; CSetMeta (b "a") long None])) = (None, UB).
Proof. split; vm_compute; reflexivity. Qed.
Lemma sign_long : last_of (snd (run [new; CSignRaw (Some (repeat 1 (Z.to_nat 513)))])) = (None, UB).
Proof. vm_compute. reflexivity. Qed.
Lemma decode_long : last_of (snd (run [new; CAddMeta (b "a") None (FromFile (Some (repeat 49 (Z.to_nat 1920)))) (Some (b "integer"))])) = (None, UB).
Proof. vm_compute. reflexivity. Qed.
Lemma meta_cut : last_of (snd (run [new; CAddMeta (b "a") None (FromFile (Some (repeat 49 (Z.to_nat 3000)))) None; CExtractMeta (b "a") None])) =
  (Some (repeat 49 (Z.to_nat 1920)), Ok tt).
Proof. vm_compute. reflexivity. Qed.

(* ---- integers ---- *)
Lemma big_integer : last_of (snd (run [new; CAddMeta (b "a") None (FromString (b "9223372036854775808")) (Some (b "integer"))])) = (None, Err E_FAILED).
Proof. vm_compute. reflexivity. Qed.
Lemma not_integer : last_of (snd (run [new; CAddMeta (b "a") None (FromString (b "12monkeys")) (Some (b "integer")); CExtractMeta (b "a") None])) =
  (Some [12; 0; 0; 0; 0; 0; 0; 0], Ok tt).
Proof. vm_compute. reflexivity. Qed.

(* ---- transport --add stores bytes of deleted metadata ---- *)
Lemma stale_leak : exists v, last_of (snd (run [ new; CAddMeta (b "a") None (FromString (b "x")) None; CAddPart (b "p") [1] false;
    CAddMeta (b "secret") (Some (b "p")) (FromString (b "the key is 1234")) None; CDelete (b "p") false;
    CTransportAdd (b "fs") (b "e") (b "d"); CExtractMeta (b "bpak-transport") (Some (b "fs")) ])) = (Some v, Ok tt) /\ slice 8 7 v = b "is 1234".
Proof. eexists. split; vm_compute; reflexivity. Qed.

Definition plain_session : list cmd :=
  [ CAddMeta (b "bpak-package") None (FromString (b "0888b0fa-9c48-4524-9845-06a641b61edd")) (Some (b "uuid"));
    CAddMeta (b "version") None (FromString (b "42")) (Some (b "integer"));
    CAddPart (b "kernel") (b "some bytes") false;
    CSetMeta (b "version") (b "-0x10") (Some (b "integer"));
    CSetIds (Some (b "0x1234")) (Some (b "my-keystore"));
    CExtractPart (b "kernel");
    CDelete (b "kernel") false ].
Lemma plain_session_fits : all_fit toy_sha (mkWorld 1 2 0 0 [] [] []) plain_session.
Proof.
  unfold plain_session. cbn [all_fit].
  repeat (split; [vm_compute; reflexivity|]; intros w' out x H; vm_compute in H;
    repeat match goal with H : _ /\ _ |- _ => destruct H | H : (_, _) = (_, _) |- _ => injection H; clear H; intros end; subst; cbn [all_fit]).
  exact I.
Qed.
