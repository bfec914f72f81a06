(* ArgMeans.v -- command lines and the commands of CliSpec.v. *)
From Coq Require Import String Permutation.
From Verif Require Import Base BaseLemmas HeaderModel CrcModel HashModel MerkleModel VerifyModel PkgModel UtilModel KeystoreModel MbedModel
  CliModel CliSpec CliArgs CliProofs BspatchModel LzModel TransportModel TransportCliModel ArgModel ArgSpec ArgProofs ArgActs.
Local Open Scope Z_scope.

Lemma permuted_last (l1 l2 : list opt) c : Permutation l1 l2 -> NoDup (map fst l1) -> last_given l1 c = last_given l2 c.
Proof.
  intros P N. assert (K : forall l : list opt, NoDup (map fst l) -> forall x, find (fun x => fst x =? c) (rev l) = Some x <-> In x l /\ fst x = c).
  { intros l M x. split.
    - intros F. apply find_some in F as [I E]. split; [now apply in_rev | now apply Z.eqb_eq].
    - intros [I E]. destruct (find (fun x : Z * option bytes => fst x =? c) (rev l)) as [z|] eqn:F.
      + apply find_some in F as [J E']. apply in_rev in J. apply Z.eqb_eq in E'. f_equal.
        clear - M I J E E'. induction l as [|w r IH]; [destruct I|]. cbn [map] in M. apply NoDup_cons_iff in M as [M1 M2].
        destruct I as [->|I], J as [->|J].
        * reflexivity.
        * exfalso. apply M1. rewrite E, <- E'. now apply in_map.
        * exfalso. apply M1. rewrite E', <- E. now apply in_map.
        * now apply IH.
      + exfalso. pose proof (find_none _ _ F x (proj1 (in_rev l x) I)) as X. cbv beta in X. rewrite E, Z.eqb_refl in X. discriminate. }
  assert (N2 : NoDup (map fst l2)) by (eapply Permutation_NoDup; [exact (Permutation_map fst P) | exact N]).
  unfold last_given. f_equal. destruct (find (fun x : Z * option bytes => fst x =? c) (rev l1)) as [x|] eqn:F1.
  - symmetry. apply K; [exact N2|]. apply K in F1 as [I E]; [|exact N]. split; [|exact E]. now apply (Permutation_in _ P).
  - destruct (find (fun x : Z * option bytes => fst x =? c) (rev l2)) as [x|] eqn:F2; [|reflexivity]. apply K in F2 as [I E]; [|exact N2].
    assert (X : find (fun x : Z * option bytes => fst x =? c) (rev l1) = Some x) by (apply K; [exact N|]; split; [now apply (Permutation_in _ (Permutation_sym P)) | exact E]).
    rewrite X in F1. discriminate.
Qed.
Lemma id_of_ident a : id_of a = ident a.
Proof. destruct a as [s|]; [exact (id_arg_spec s) | reflexivity]. Qed.

Section Means.
Variables (e : env) (fs : fsys).
Ltac start S U := erewrite (reads e fs _ _ _ _ S U); [|intros ?; reflexivity]; cbv beta iota; rewrite ?arg_val, ?set_has.

Lemma incomplete_fails v ws l o : spells (syntax_of v) ws l o -> Forall (usable v) l -> incomplete v l ->
  bpak e fs (verb_name v :: ws) = (fs, PNothing, Some (Err (-1))).
Proof using.
  intros S U I. destruct o as [|path o]; [now apply (no_path e fs v ws l)|]. destruct v; cbn [incomplete] in I; try contradiction; start S U.
  - destruct I as [[Ep Em]|[Ef Es]]; [now rewrite Ep, Em|]. rewrite Ef, Es. destruct (val l "m"); [reflexivity|]. now destruct (val l "p").
  - destruct I as [[Em Es]|(Em & Ek & Ei)]; [rewrite Es; now destruct (val l "m")|]. now rewrite Em, Ek, Ei.
  - destruct I as [Ea Ep]. rewrite id_of_ident, Ea, Ep. reflexivity.
  - rewrite !id_of_ident. unfold fail, E_FAILED. 
    assert (X : (ident (val l "m") >? 0) = (ident (val l "p") >? 0)).
    { rewrite !Z.gtb_ltb. destruct (Z.ltb_spec 0 (ident (val l "p"))), (Z.ltb_spec 0 (ident (val l "m"))); try reflexivity; lia. }
    rewrite X. now destruct (ident (val l "p") >? 0).
  - destruct I as [[A B]|[[A B]|[A B]]]; rewrite A, B; [reflexivity| |]; destruct (has l "E"); try reflexivity; destruct (has l "a"); reflexivity.
Qed.

Lemma same_refl a : same_outcome a a.
Proof using. now repeat split. Qed.
Lemma on_file_run path f c miss k : fs path = Some f -> (forall f, k f = run_cmd (en_sha e) c f) ->
  same_outcome (on_file fs path miss k) (performed (en_sha e) fs path c f).
Proof using.
  intros F K. unfold on_file, performed. rewrite F, K. destruct (run_cmd (en_sha e) c f) as [[f1 out] r]. apply same_refl.
Qed.
Lemma put_same (path f p : bytes) : fs path = Some f -> fs_put fs path f p = fs p.
Proof using. intros F. unfold fs_put. destruct (bytes_eqb p path) eqn:B; [|reflexivity]. apply BaseLemmas.bytes_eqb_eq in B. now subst. Qed.
Lemma put_twice (path f g p : bytes) : fs_put (fs_put fs path f) path g p = fs_put fs path g p.
Proof using. unfold fs_put. now destruct (bytes_eqb p path). Qed.

Lemma meaning v ws l path o c f : spells (syntax_of v) ws l (path :: o) -> Forall (usable v) l -> fs path = Some f -> means e fs path l v c ->
  same_outcome (bpak e fs (verb_name v :: ws)) (performed (en_sha e) fs path c f).
Proof using.
  intros S U F M. destruct M as [X | name d data Hm He Hp Hf Hd Fd | name d data Hm He Hp Hf Hd Fd | name s Hm Hs | name d Hm Hs Hf | name s Hm Hs | Hm Hk
    | name Ha Hp Hi | Ha | name Hp Hi Hm Ho | name Hm Hi Hp Ho | s Hf | part enc dec Ha HE HD HO Hr He Hd]; start S U.
  - unfold performed. cbn [run_cmd]. unfold cli_create.
    destruct (hash_arg (val l "H")) as [hk|]; [|cbn; repeat split; intros p; symmetry; now apply put_same].
    destruct (sign_arg (val l "S")) as [sk|]; [|cbn; repeat split; intros p; symmetry; now apply put_same].
    rewrite F. assert (B : negb (has l "Y") && negb match en_answer e with Some c => c =? ch "Y" | None => false end = false).
    { destruct X as [X|[X|X]]; [congruence | now rewrite X | rewrite X]. rewrite Z.eqb_refl. apply andb_false_r. }
    cbn [andb]. rewrite B. destruct (pkg_open (en_sha e) true []) as [f1 [p| | |]]; try apply same_refl.
    destruct (hash_and_write (en_sha e) _) as [p1 r]. apply same_refl.
  - rewrite Hm, Hp, He, Hf. assert (B : bytes_eqb d path = false) by now apply BaseLemmas.bytes_eqb_neq. cbn [content]. rewrite B, Fd.
    destruct (val l "s"); now apply on_file_run.
  - rewrite Hm, Hp, He, Hf. assert (B : bytes_eqb d path = false) by now apply BaseLemmas.bytes_eqb_neq. cbn [content]. rewrite B, Fd.
    replace (bytes_eqb (bytes_of "merkle") (bytes_of "key")) with false by reflexivity. rewrite BaseLemmas.bytes_eqb_refl.
    destruct (val l "s"); now apply on_file_run.
  - rewrite Hm, Hs. now apply on_file_run.
  - rewrite Hm, Hs, Hf. now apply on_file_run.
  - rewrite Hm, Hs. now apply on_file_run.
  - rewrite Hm. replace (has l "k" || has l "i") with true by (destruct Hk as [->| ->]; [reflexivity | symmetry; apply orb_true_r]).
    now apply on_file_run.
  - rewrite id_of_ident, Ha, Hp. cbn [ident]. rewrite (proj2 (Z.eqb_neq _ _) Hi). now apply on_file_run.
  - rewrite Ha. rewrite andb_false_r. now apply on_file_run.
  - rewrite !id_of_ident, Hm, Ho, Hp. cbn [ident]. rewrite !Z.gtb_ltb. rewrite (proj2 (Z.ltb_lt 0 (arg_id name)) Hi).
    change (0 <? 0) with false. cbn [xorb negb]. cbn [to_file]. now apply on_file_run.
  - rewrite !id_of_ident, Hp, Ho, Hm. cbn [ident]. rewrite !Z.gtb_ltb. rewrite (proj2 (Z.ltb_lt 0 (arg_id name)) Hi).
    change (0 <? 0) with false. cbn [xorb negb]. cbn [to_file]. now apply on_file_run.
  - rewrite Hf. now apply on_file_run.
  - rewrite Ha, HE, HD, HO, Hr, He, Hd. cbn [andb orb id_of]. unfold t_open, open_rw. rewrite F. unfold performed. cbn [run_cmd]. unfold cli_transport_add, with_package.
    destruct (pkg_open (en_sha e) true f) as [f1 [p|x| |]] eqn:O; try apply same_refl.
    assert (E : f1 = pk_file p).
    { unfold pkg_open in O. destruct (_ =? _).
      - injection O as <- O. destruct (valid_header _) as [[]| | |]; cbn [bind] in O; try discriminate. now injection O as <-.
      - destruct (pkg_update_hash _ _ _) as [q [u| | |]]; try discriminate. cbn [negb] in O. injection O as <- O.
        destruct (valid_header _) as [[]| | |]; cbn [bind] in O; try discriminate. now injection O as <-. }
    subst f1. destruct (add_transport_meta (pk_header p) (id_arg part) (bpak_id enc) (bpak_id dec)) as [h1 [u|x| |]]; try apply same_refl.
    split; [|split; reflexivity]. intros q. cbn [fst snd]. apply put_twice.
Qed.

(* a new package *)
Lemma meaning_new ws l path o : spells (syntax_of Create) ws l (path :: o) -> Forall (usable Create) l -> fs path = None ->
  hash_arg (val l "H") <> None -> sign_arg (val l "S") <> None ->
  same_outcome (bpak e fs (verb_name Create :: ws)) (performed (en_sha e) fs path (CCreate (val l "H") (val l "S")) []).
Proof using.
  intros S U F H1 H2. start S U. unfold performed. cbn [run_cmd]. rewrite F. cbn [andb].
  destruct (hash_arg (val l "H")) as [hk|]; [|congruence]. destruct (sign_arg (val l "S")) as [sk|]; [|congruence].
  destruct (cli_create _ _ _ []) as [[f1 out] r] eqn:E. cbn [fst snd]. split; [|split]; try reflexivity. cbn [snd fst].
  assert (X : snd (fst (cli_create (en_sha e) (val l "H") (val l "S") [])) = None).
  { unfold cli_create. destruct (hash_arg (val l "H")); [|reflexivity]. destruct (sign_arg (val l "S")); [|reflexivity].
    destruct (pkg_open (en_sha e) true []) as [g [p| | |]]; try reflexivity. now destruct (hash_and_write (en_sha e) _) as [p1 r1]. }
  rewrite E in X. cbn [fst snd] in X. now rewrite X.
Qed.
(* commands with keys *)
Lemma on_file_leaves path f miss k : fs path = Some f -> on_file fs path miss k = leaves fs path (k f).
Proof using. intros F. unfold on_file. now rewrite F. Qed.
Lemma meaning_key ws l path o f name d b k : spells (syntax_of Add) ws l (path :: o) -> Forall (usable Add) l -> fs path = Some f ->
  val l "m" = None -> val l "p" = Some name -> val l "e" = Some (bytes_of "key") -> val l "f" = Some d -> fs d = Some b ->
  mbed_load_public_key (en_pub e) b = Ok k ->
  bpak e fs (verb_name Add :: ws) = leaves fs path (cli_add_key (en_sha e) name (k_data k) (has l "F") f).
Proof using.
  intros S U F Hm Hp He Hf Fd K. start S U. rewrite Hm, Hp, He, Hf, BaseLemmas.bytes_eqb_refl. unfold load_public. cbn [content]. rewrite Fd, K.
  destruct (val l "s"); now apply on_file_leaves.
Qed.
Lemma meaning_sign ws l path o f s b : spells (syntax_of Sign) ws l (path :: o) -> Forall (usable Sign) l -> fs path = Some f ->
  val l "f" = None -> val l "k" = Some s -> fs s = Some b ->
  bpak e fs (verb_name Sign :: ws) = leaves fs path (cli_sign (en_sha e) (en_sg e) (en_junk e) (mbed_load_private_key (en_pri e) b) f).
Proof using. intros S U F Hf Hk Fs. start S U. rewrite Hf, Hk. cbn [content]. rewrite Fs. now apply on_file_leaves. Qed.
Lemma meaning_verify ws l path o f s b : spells (syntax_of Verify) ws l (path :: o) -> Forall (usable Verify) l -> fs path = Some f ->
  val l "k" = Some s -> fs s = Some b ->
  bpak e fs (verb_name Verify :: ws) = leaves fs path (cli_verify (en_sha e) (en_sg e) (en_junk e) (fun _ _ => mbed_load_public_key (en_pub e) b) f).
Proof using. intros S U F Hk Fs. start S U. rewrite Hk. unfold load_public. cbn [content]. rewrite Fs. now apply on_file_leaves. Qed.
Lemma meaning_keystore ws l path o f s b : spells (syntax_of Verify) ws l (path :: o) -> Forall (usable Verify) l -> fs path = Some f ->
  val l "k" = None -> val l "K" = Some s -> fs s = Some b ->
  bpak e fs (verb_name Verify :: ws) = leaves fs path (cli_verify (en_sha e) (en_sg e) (en_junk e)
    (fun ksid kid => keystore_load_key (en_sha e) (mbed_parse_public_key (en_buf e)) b ksid kid None) f).
Proof using. intros S U F Hk HK Fs. start S U. rewrite Hk, HK, Fs. now apply on_file_leaves. Qed.
Lemma meaning_transport ws l path o v : spells (syntax_of Transport) ws l (path :: o) -> Forall (usable Transport) l -> has l "a" = false ->
  (has l "E" = true /\ has l "D" = false /\ v = TEncode) \/ (has l "E" = false /\ has l "D" = true /\ v = TDecode) ->
  exists fs1 r, cli_transport (en_bld e) (en_sha e) (en_sais e) (en_garbage e) fs v path (val l "O") (val l "o") = (fs1, r) /\
    bpak e fs (verb_name Transport :: ws) = (fs1, PNothing, r).
Proof using.
  intros S U Ha V. start S U. rewrite Ha. destruct (cli_transport _ _ _ _ fs v path (val l "O") (val l "o")) as [fs1 r] eqn:E. exists fs1, r.
  split; [reflexivity|]. destruct V as [(A & B & ->)|(A & B & ->)]; rewrite A, B; cbn [andb orb]; cbv zeta; now rewrite E.
Qed.
(* extraction into a file *)
Lemma meaning_output ws l path o out f c : spells (syntax_of Extract) ws l (path :: o) -> Forall (usable Extract) l -> fs path = Some f ->
  val l "o" = Some out -> out <> path ->
  (exists name, c = CExtractPart name /\ val l "p" = Some name /\ 0 < arg_id name /\ ident (val l "m") = 0) \/
  (exists name, c = CExtractMeta name (val l "r") /\ val l "m" = Some name /\ 0 < arg_id name /\ ident (val l "p") = 0) ->
  same_outcome (bpak e fs (verb_name Extract :: ws)) (to_file (performed (en_sha e) fs path c f) (Some out)).
Proof using.
  intros S U F Ho N [(name & -> & Hp & Hi & Hm)|(name & -> & Hm & Hi & Hp)]; start S U; rewrite !id_of_ident, Hm, Ho, Hp; cbn [ident]; rewrite !Z.gtb_ltb;
    rewrite (proj2 (Z.ltb_lt 0 (arg_id name)) Hi); change (0 <? 0) with false; cbn [xorb negb];
    [assert (B : bytes_eqb out path = false) by (now apply BaseLemmas.bytes_eqb_neq); rewrite B|];
    unfold on_file, performed; rewrite F; cbn [run_cmd]; apply same_refl.
Qed.
End Means.
