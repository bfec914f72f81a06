(* ArgIdle.v -- options without effect. *)
From Coq Require Import String.
From Verif Require Import Base BaseLemmas HeaderModel CrcModel HashModel MerkleModel VerifyModel PkgModel UtilModel KeystoreModel MbedModel
  CliModel CliSpec CliArgs BspatchModel LzModel TransportModel TransportCliModel ArgModel ArgSpec ArgProofs ArgActs ArgMeans.
Local Open Scope Z_scope.
Local Open Scope string_scope.
Local Open Scope Z_scope.

Lemma without_given c d l : d <> c -> last_given (without c l) d = last_given l d.
Proof.
  intros N. rewrite <- !given_last. unfold without. induction l as [|[x v] r IH]; [reflexivity|]. cbn [filter fst map ev].
  destruct (Z.eqb_spec x c) as [->|D]; cbn [negb].
  - rewrite IH. unfold ev at 2. cbn [given fst snd]. rewrite (proj2 (Z.eqb_neq c d)) by congruence. now destruct (given (map ev r) d).
  - cbn [map]. unfold ev at 1 3. cbn [given fst snd]. now rewrite IH.
Qed.
Lemma without_val c l s : ch s <> c -> val (without c l) s = val l s.
Proof. intros H. unfold val. now rewrite without_given. Qed.
Lemma without_has c l s : ch s <> c -> has (without c l) s = has l s.
Proof. intros H. unfold has. now rewrite without_given. Qed.
Lemma usable_without v c l : Forall (usable v) l -> Forall (usable v) (without c l).
Proof. intros F. unfold without. induction F as [|x l U F IH]; [constructor|]. cbn [filter]. destruct (negb _); [now constructor | exact IH]. Qed.

Section Idle.
Variables (e : env) (fs : fsys).
Ltac start S U := erewrite (reads e fs _ _ _ _ S U); [|intros ?; reflexivity]; cbv beta iota; rewrite ?arg_val, ?set_has.
Ltac drop := try rewrite (without_val _ _ "m") by (apply Z.eqb_neq; reflexivity); try rewrite (without_val _ _ "P") by (apply Z.eqb_neq; reflexivity); try rewrite (without_val _ _ "n") by (apply Z.eqb_neq; reflexivity); try rewrite (without_has _ _ "H") by (apply Z.eqb_neq; reflexivity); try rewrite (without_has _ _ "B") by (apply Z.eqb_neq; reflexivity); try rewrite (without_has _ _ "d") by (apply Z.eqb_neq; reflexivity); try rewrite (without_val _ _ "p") by (apply Z.eqb_neq; reflexivity); try rewrite (without_val _ _ "s") by (apply Z.eqb_neq; reflexivity); try rewrite (without_val _ _ "f") by (apply Z.eqb_neq; reflexivity); try rewrite (without_val _ _ "e") by (apply Z.eqb_neq; reflexivity); try rewrite (without_val _ _ "r") by (apply Z.eqb_neq; reflexivity); try rewrite (without_val _ _ "k") by (apply Z.eqb_neq; reflexivity); try rewrite (without_val _ _ "i") by (apply Z.eqb_neq; reflexivity); try rewrite (without_val _ _ "o") by (apply Z.eqb_neq; reflexivity); try rewrite (without_val _ _ "O") by (apply Z.eqb_neq; reflexivity); try rewrite (without_val _ _ "d") by (apply Z.eqb_neq; reflexivity); try rewrite (without_val _ _ "H") by (apply Z.eqb_neq; reflexivity); try rewrite (without_val _ _ "S") by (apply Z.eqb_neq; reflexivity); try rewrite (without_val _ _ "K") by (apply Z.eqb_neq; reflexivity); try rewrite (without_has _ _ "F") by (apply Z.eqb_neq; reflexivity); try rewrite (without_has _ _ "k") by (apply Z.eqb_neq; reflexivity); try rewrite (without_has _ _ "i") by (apply Z.eqb_neq; reflexivity); try rewrite (without_has _ _ "a") by (apply Z.eqb_neq; reflexivity); try rewrite (without_has _ _ "E") by (apply Z.eqb_neq; reflexivity); try rewrite (without_has _ _ "D") by (apply Z.eqb_neq; reflexivity); try rewrite (without_has _ _ "Y") by (apply Z.eqb_neq; reflexivity).
Lemma idle_same v ws1 ws2 l o c : spells (syntax_of v) ws1 l o -> spells (syntax_of v) ws2 (without c l) o -> Forall (usable v) l -> idle v l c ->
  bpak e fs (verb_name v :: ws1) = bpak e fs (verb_name v :: ws2).
Proof using.
  intros S1 S2 U1 I. pose proof (usable_without v c l U1) as U2.
  destruct o as [|path o]; [now rewrite (no_path e fs v ws1 l), (no_path e fs v ws2 (without c l))|].
  destruct I as [->|I].
  { destruct v; start S1 U1; start S2 U2; drop; reflexivity. }
  destruct v; cbn [idle] in I; try contradiction; start S1 U1; start S2 U2.
  - destruct I as [[M [->|[->|[-> Hs]]]]|[M [->|[-> Hf]]]]; drop.
    + destruct (val l "m"); [|congruence]. destruct (val l "p"), (val (without (ch "p") l) "p"); reflexivity.
    + destruct (val l "m"); [reflexivity | congruence].
    + destruct (val l "m"); [|congruence]. destruct (val l "s"); [reflexivity | congruence].
    + rewrite M. reflexivity.
    + rewrite M. destruct (val l "f"); [|congruence]. destruct (val l "s"), (val (without (ch "s") l) "s"); reflexivity.
  - destruct I as [[M [->| ->]]|[M [->| ->]]]; drop; destruct (val l "m"); try congruence; reflexivity.
  - destruct I as [A ->]. drop. rewrite A, !andb_false_r. reflexivity.
  - destruct I as [A ->]. drop. cbv zeta. rewrite !id_of_ident, !Z.gtb_ltb. rewrite (proj2 (Z.ltb_ge 0 (ident (val l "m"))) A). reflexivity.
  - destruct I as [A ->]. drop. destruct (val l "f"); [reflexivity | congruence].
  - destruct I as [A ->]. drop. destruct (val l "k"); [reflexivity | congruence].
  - destruct I as [[A [->|[->| ->]]]|(A & B & ->)]; drop.
    1, 2, 3: cbv zeta; destruct A as [A|A]; rewrite A, ?orb_true_r; reflexivity.
    rewrite A, B. cbn [orb andb]. reflexivity.
  - destruct I as [[A [->|[->| ->]]]|[[A [->| ->]]|[A ->]]]; drop; unfold show_of; try rewrite A;
      destruct (val l "m"), (val l "p"); try reflexivity; try (destruct A; congruence); destruct (val l "P"); try reflexivity; congruence.
Qed.
(* a part's content cannot come from a string *)
Lemma no_string_part ws l path o name : spells (syntax_of Add) ws l (path :: o) -> Forall (usable Add) l ->
  val l "m" = None -> val l "p" = Some name -> val l "f" = None -> snd (bpak e fs (verb_name Add :: ws)) <> Some (Ok tt).
Proof using.
  intros S U Hm Hp Hf. start S U. rewrite Hm, Hp, Hf. destruct (val l "s") as [s|]; [|discriminate].
  assert (K : forall x, x <> 0 -> snd (on_file fs path E_NOT_FOUND (open_and_fail e x)) <> Some (Ok tt)).
  { intros x _. unfold on_file. destruct (fs path) as [f|]; [|discriminate]. unfold open_and_fail, with_package.
    destruct (pkg_open (en_sha e) true f) as [f1 [p| | |]]; discriminate. }
  destruct (val l "e") as [enc|]; [|now apply K].
  destruct (bytes_eqb enc (bytes_of "key")); [now apply K|]. destruct (bytes_eqb enc (bytes_of "merkle")); now apply K.
Qed.
End Idle.
