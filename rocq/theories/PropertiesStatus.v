(* PropertiesStatus.v -- C83: the exit status of bpak. *)
From Coq Require Import String.
From Verif Require Import Base BaseLemmas HeaderModel HeaderSpec HashModel MerkleModel VerifyModel VerifySpec VerifyProofs VerifySign CodecProofs PkgModel KeystoreModel
  MbedModel CliModel LzModel TransportModel TransportCliModel ViewModel ArgModel ArgSpec ArgMeans PropertiesArg PropertiesVerify PkgApi MerkleApi
  CrcModel HeaderWitness VerifyWitness TransportWitness LowTac LowBase LowPkg LowTransport LowArg.
Local Open Scope Z_scope.

(* the process ends, with this status *)
Definition exits (e : env) (fs : fsys) (ws : list bytes) (c : Z) : Prop :=
  exists fs' p r, bpak e fs ws = (fs', p, Some r) /\ status r = Some c.
(* an error of include/bpak/bpak.h:94-126, as a return value *)
Definition bpak_error (c : Z) : Prop := -30 <= c <= -1.
(* what the signature back end reports is one of bpak's errors
   (lib/mbedtls_wrapper.c maps every mbedTLS code to one) *)
Definition reports_errors {K} (sg : sigscheme K) : Prop :=
  (forall s h k key c, sg_verify sg s h k key = Err c -> bpak_error c) /\ (forall h k key c, sg_sign sg h k key = Err c -> bpak_error c).
(* the files that exist: bytes, and a length an off_t can hold *)
Definition real_files (fs : fsys) : Prop := forall name f, fs name = Some f -> bytes_ok f /\ zlen f < 2^63.

Lemma reports_low {K} (sg : sigscheme K) : reports_errors sg -> low_sg sg.
Proof.
  intros [A B]. split; intros; unfold low.
  - destruct (sg_verify sg s h k key) eqn:E; try exact I. exact (A _ _ _ _ _ E).
  - destruct (sg_sign sg h k key) eqn:E; try exact I. exact (B _ _ _ _ E).
Qed.
(* every error has a text *)
Theorem C83_errors_have_texts c : bpak_error c -> error_string c <> "Unknown"%string /\ error_string c <> "OK"%string.
Proof.
  intros H. assert (D : exists n : nat, (n < 30)%nat /\ c = - 1 - Z.of_nat n) by (exists (Z.to_nat (- 1 - c)); unfold bpak_error in H; lia).
  destruct D as (n & L & ->). do 30 (destruct n as [| n]; [split; vm_compute; discriminate |]). lia.
Qed.
(* whatever the words and the files: a command succeeds, with status 0, or fails
   with one of bpak's errors, which the status tells *)
Theorem C83_exit_status e fs ws fs' p r : good_hash (en_sha e) -> reports_errors (en_sg e) -> real_files fs ->
  bpak e fs ws = (fs', p, Some r) -> r <> UB -> r <> Stuck ->
  (r = Ok tt /\ status r = Some 0) \/ (exists c, r = Err c /\ bpak_error c /\ status r = Some (256 + c)).
Proof.
  intros G S R E NU NS. pose proof (low_bpak e (reports_low _ S) G fs ws R) as L. rewrite E in L. unfold olow in L. cbn [snd] in L.
  destruct r as [[] | c | |]; [left; split; reflexivity | right | contradiction | contradiction].
  exists c. split; [reflexivity |]. split; [exact L |]. unfold low in L. assert (M : 256 + c = c mod 256) by (apply (Z.mod_unique c 256 (-1)); [left |]; lia). rewrite M. reflexivity.
Qed.
Theorem C83_success e fs ws fs' p r : good_hash (en_sha e) -> reports_errors (en_sg e) -> real_files fs ->
  bpak e fs ws = (fs', p, Some r) -> (status r = Some 0 <-> r = Ok tt).
Proof.
  intros G S R E. split; [| intros ->; reflexivity]. intros Z0. destruct r as [[] | c | |] eqn:Er; try discriminate; [reflexivity |].
  destruct (C83_exit_status e fs ws fs' p (Err c) G S R E) as [[X _] | (d & X & B & Y)]; try discriminate.
  unfold bpak_error in B. rewrite Y in Z0. assert (Z1 : 256 + d = 0) by congruence. lia.
Qed.
(* two failures with one status are the same error *)
Theorem C83_status_tells_error e1 e2 fs1 fs2 ws1 ws2 fs1' fs2' p1 p2 c1 c2 :
  good_hash (en_sha e1) -> reports_errors (en_sg e1) -> real_files fs1 -> good_hash (en_sha e2) -> reports_errors (en_sg e2) -> real_files fs2 ->
  bpak e1 fs1 ws1 = (fs1', p1, Some (Err c1)) -> bpak e2 fs2 ws2 = (fs2', p2, Some (Err c2)) -> status (Err c1) = status (Err c2) -> c1 = c2.
Proof.
  intros G1 S1 R1 G2 S2 R2 E1 E2 Q.
  destruct (C83_exit_status e1 fs1 ws1 fs1' p1 _ G1 S1 R1 E1) as [[X _] | (d1 & X1 & _ & Y1)]; try discriminate.
  destruct (C83_exit_status e2 fs2 ws2 fs2' p2 _ G2 S2 R2 E2) as [[X _] | (d2 & X2 & _ & Y2)]; try discriminate.
  rewrite Y1, Y2 in Q. assert (256 + d1 = 256 + d2) by congruence. assert (d1 = d2) by lia. congruence.
Qed.

(* bpak verify --key K F says 0 exactly for the packages of C22, signed for the
   key that the file K holds *)
Theorem C83_verify e fs ws l path o s f b : good_hash (en_sha e) -> reports_errors (en_sg e) -> real_files fs ->
  spells (syntax_of Verify) ws l (path :: o) -> Forall (usable Verify) l -> val l "k" = Some s ->
  fs path = Some f -> fs s = Some b -> 4096 <= zlen f ->
  let h := dec_header (ztake 4096 f) in
  sizes_ok (h_parts h) ->
  exits e fs (verb_name Verify :: ws) 0 <->
  valid_header h = Ok tt /\ exists k, mbed_load_public_key (en_pub e) b = Ok k /\
    hash_supported (h_hash_kind h) = true /\ h_signature_sz h <= 512 /\
    sg_verify (en_sg e) (slice 0 (h_signature_sz h) (h_signature h)) (en_sha e (h_hash_kind h) (enc_header (unsigned h))) (h_hash_kind h) k = Ok true /\
    payload_present f 4096 (h_parts h) /\
    slice 0 (digest_len (h_hash_kind h)) (h_payload_hash h) = en_sha e (h_hash_kind h) (hashed_payload f 4096 (h_parts h)) /\
    verify_trees_loop (en_sha e) h (file_rd f) 4096 (h_parts h) = Ok tt.
Proof.
  intros G RE RF Sp U K F Fs L h S. destruct (RF _ _ F) as [B _].
  destruct (C82_meaning_keys e fs ws l path o f s b F Fs) as (_ & _ & M & _). specialize (M Sp U K).
  assert (W : wf_header h). { apply wf_dec_header; [rewrite zlen_ztake; lia | apply bytes_ok_ztake; exact B]. }
  assert (O : pkg_open (en_sha e) true f = (f, do _ <- valid_header h; Ok (mkPkg h f))).
  { unfold pkg_open, fread_at. cbv zeta. change HDR_SIZE with 4096. change (slice 0 4096 f) with (ztake 4096 f).
    rewrite zlen_ztake. replace (Z.max 0 (Z.min 4096 (zlen f))) with 4096 by lia. reflexivity. }
  assert (X : exits e fs (verb_name Verify :: ws) 0 <->
     (do _ <- valid_header h; do k <- mbed_load_public_key (en_pub e) b; pkg_verify (en_sha e) (en_sg e) (en_junk e) (mkPkg h f) k) = Ok tt).
  { set (r := do _ <- valid_header h; _).
    assert (D : exists fs' p, bpak e fs (verb_name Verify :: ws) = (fs', p, Some r)).
    { rewrite M. unfold leaves, cli_verify, with_package. rewrite O. subst r. cbv beta.
      destruct (valid_header h) as [[] | c | |]; cbn [bind]; try (do 2 eexists; reflexivity).
      destruct (mbed_load_public_key (en_pub e) b) as [k | c | |]; do 2 eexists; reflexivity. }
    destruct D as (fs' & p & D). unfold exits. split.
    - intros (fs2 & p2 & r2 & E2 & T). rewrite D in E2. injection E2 as _ _ <-. exact (proj1 (C83_success e fs _ fs' p r G RE RF D) T).
    - intros T. exists fs', p, r. split; [exact D |]. exact (proj2 (C83_success e fs _ fs' p r G RE RF D) T). }
  rewrite X. clear X.
  destruct (valid_header h) as [[] | c | |]; cbn [bind]; try (split; [discriminate | intros [V _]; discriminate V]).
  destruct (mbed_load_public_key (en_pub e) b) as [k | c | |]; cbn [bind];
    try (split; [discriminate | intros (_ & k & V & _); discriminate V]).
  rewrite (C22_verify_decides _ (en_sha e) (en_sg e) G (en_junk e) (mkPkg h f) k W S).
  split.
  - intros V. split; [reflexivity |]. exists k. split; [reflexivity |]. exact V.
  - intros (_ & k2 & V & Q). assert (k2 = k) by congruence. subst k2. exact Q.
Qed.

(* non-vacuity: signing a package, verifying it with the right key and a wrong
   one, and commands that fail *)
Definition sw_sig : sigscheme key :=
  mkSig (fun s d k key => Ok (bytes_eqb s ([u8 (k_id key); k] ++ k_data key ++ d)))
        (fun d k key => Ok ([u8 (k_id key); k] ++ k_data key ++ d)).
Definition sw_parse (b : bytes) : option pkctx := match b with [] => None | _ => Some (mkPk (bytes_of "EC") 256 b) end.
Definition sw_env : env :=
  mkEnv toy_sha sw_sig [] [] sw_parse sw_parse sw_parse tw_build (fun _ => None) (mkGarbage true init_header) None [] [] [].
Definition sw_fs : fsys := fun p =>
  if bytes_eqb p (bytes_of "disk") then Some [1; 2; 3] else if bytes_eqb p (bytes_of "k1") then Some [5; 6]
  else if bytes_eqb p (bytes_of "k2") then Some [5; 7] else None.
Definition sw_run (fs : fsys) (ws : list string) : outcome := bpak sw_env fs (map bytes_of ws).
Definition sw_status (x : outcome) : option Z := match snd x with Some r => status r | None => None end.
Definition sw_after (x : outcome) (name : string) : bytes := match fst (fst x) (bytes_of name) with Some f => f | None => [] end.
Definition sw_with (f : bytes) : fsys := fs_put sw_fs (bytes_of "pkg") f.
Definition sw_created : bytes := Eval vm_compute in sw_after (sw_run sw_fs ["create"; "pkg"]%string) "pkg"%string.
Definition sw_added : bytes := Eval vm_compute in sw_after (sw_run (sw_with sw_created) ["add"; "pkg"; "-pfs"; "--from-file=disk"]%string) "pkg"%string.
Definition sw_signed : bytes := Eval vm_compute in sw_after (sw_run (sw_with sw_added) ["sign"; "-k"; "k1"; "pkg"]%string) "pkg"%string.
Lemma sw_exits fs ws c : sw_status (sw_run fs ws) = Some c -> exits sw_env fs (map bytes_of ws) c.
Proof.
  unfold sw_status, sw_run, exits. destruct (bpak sw_env fs (map bytes_of ws)) as [[fs' p] [r |]]; cbn [snd]; [| discriminate].
  intros S. now exists fs', p, r.
Qed.
Lemma sw_real : real_files (sw_with sw_signed).
Proof.
  intros n f. unfold sw_with, fs_put, sw_fs.
  repeat match goal with |- context [if bytes_eqb n ?x then _ else _] => destruct (bytes_eqb n x) end; intros X; try discriminate X;
    injection X as <-; (split; [apply bytes_okb_ok |]; vm_compute; reflexivity).
Qed.
Example C83_instance : good_hash (en_sha sw_env) /\ reports_errors (en_sg sw_env) /\ real_files (sw_with sw_signed) /\
  sw_status (sw_run sw_fs ["create"; "pkg"]%string) = Some 0 /\
  sw_status (sw_run (sw_with sw_created) ["add"; "pkg"; "-pfs"; "--from-file=disk"]%string) = Some 0 /\
  sw_status (sw_run (sw_with sw_added) ["sign"; "-k"; "k1"; "pkg"]%string) = Some 0 /\
  (* accepted; the wrong key; no key file; not signed; no package *)
  sw_status (sw_run (sw_with sw_signed) ["verify"; "pkg"; "--key"; "k1"]%string) = Some 0 /\
  sw_status (sw_run (sw_with sw_signed) ["verify"; "pkg"; "--key"; "k2"]%string) = Some 236 /\
  sw_status (sw_run (sw_with sw_signed) ["verify"; "pkg"; "--key"; "nokey"]%string) = Some 237 /\
  sw_status (sw_run (sw_with sw_added) ["verify"; "pkg"; "--key"; "k1"]%string) = Some 236 /\
  sw_status (sw_run sw_fs ["verify"; "disk"; "--key"; "k1"]%string) = Some 236 /\
  sw_status (sw_run sw_fs ["make"; "pkg"]%string) = Some 255 /\
  (* the command line of C83_verify *)
  spells (syntax_of Verify) (map bytes_of ["pkg"; "--key"; "k1"]%string) [(ch "k"%string, Some (bytes_of "k1"))] [bytes_of "pkg"] /\
  Forall (usable Verify) [(ch "k"%string, Some (bytes_of "k1"))] /\
  zlen sw_signed = 4608 /\ sizes_ok (h_parts (dec_header (ztake 4096 sw_signed))).
Proof.
  split; [exact toy_sha_good |]. split; [split; intros; discriminate |]. split; [exact sw_real |].
  do 9 (split; [vm_compute; reflexivity |]).
  split; [apply read; vm_compute; reflexivity |].
  split; [apply Forall_cons; [split; [cbn; tauto |]; split; [discriminate | intros X; discriminate X] | apply Forall_nil] |].
  split; [vm_compute; reflexivity |].
  assert (W : wf_header (dec_header (ztake 4096 sw_signed)))
    by (apply wf_dec_header; [vm_compute; reflexivity | apply bytes_okb_ok; vm_compute; reflexivity]).
  assert (C : forallb (fun p => stored_size p <? 2^64) (h_parts (dec_header (ztake 4096 sw_signed))) = true) by (vm_compute; reflexivity).
  rewrite forallb_forall in C. apply Forall_forall. intros x I. split; [| specialize (C x I); lia].
  pose proof (proj2 (wf_parts _ W)) as F. rewrite Forall_forall in F. exact (F x I).
Qed.
Print Assumptions C83_exit_status.
Print Assumptions C83_verify.
