(* PropertiesAlloc.v -- C84: what a call acquires it releases. *)
From Verif Require Import AllocModel AllocSpec AllocProofs.

(* C84a: for every call, whatever the input and whichever step fails; also if
   memory runs out and with any allocator.  Nothing is released twice, used
   after its release or released by the wrong function (AllocSpec.ends) *)
Theorem C84_library_partial : forall c,
  gives KFile pkg_open /\ gives (KMem (se_user c)) (parse_public_key c) /\ gives (KMem (se_user c)) (keystore_load_key c) /\
  balanced_on add_file /\ (forall stdout, balanced_on (fun fp => extract_file fp stdout)) /\
  (se_oom c = false -> balanced_on (add_file_with_merkle_tree c)) /\
  (se_mbed3 c = false -> gives (KMem (se_user c)) (load_private_key c) /\ balanced_on (pkg_sign c)) /\
  (forall k, k <> CLzma -> balanced (transport_bsdiff c k)).
Proof.
  intros c. split; [exact open_gives|]. split; [exact (parse_gives c)|]. split; [exact (keystore_gives c)|]. split; [exact add_file_balanced|].
  split; [exact extract_balanced|]. split; [exact (merkle_balanced c)|]. split; [intros M; split; [exact (private_gives c M) | exact (sign_balanced c M)]|].
  exact (transport_bsdiff_balanced c).
Qed.
Theorem C84_transport_partial : forall c ks fpi fpo fpr h, Forall (fun k => k <> CLzma) ks ->
  holds KFile fpi h -> holds KFile fpo h -> fpr = None \/ holds KFile fpr h ->
  ends (transport_encode c ks fpi fpo fpr) h (fun _ h' => h' = h) /\ ends (transport_decode c ks fpi fpo fpr) h (fun _ h' => h' = h).
Proof. intros c ks fpi fpo fpr h N I O R. split; [now apply encode_balanced | now apply decode_balanced]. Qed.

(* C84b: a program that opens a package, makes any calls on it in any order,
   also after failures, and closes it *)
Inductive libcall := LAddFile | LAddMerkle | LAddKey | LSign | LExtract (stdout : bool) | LOther.
Definition call (c : setup) (x : libcall) (fp : ptr) : M nat :=
  match x with
  | LAddFile => add_file fp | LAddMerkle => add_file_with_merkle_tree c fp | LAddKey => add_key c fp
  | LSign => pkg_sign c fp | LExtract b => extract_file fp b | LOther => file_op fp
  end.
Fixpoint calls (c : setup) (l : list libcall) (fp : ptr) : M nat :=
  match l with [] => ret 0 | x :: r => rc <- call c x fp ;; calls c r fp end.
Definition session (c : setup) (l : list libcall) : M nat := with_pkg (calls c l).
Definition fine (c : setup) (x : libcall) : Prop :=
  match x with LAddKey => False | LAddMerkle => se_oom c = false | LSign => se_mbed3 c = false | _ => True end.
Theorem C84_session_partial : forall c l, Forall (fine c) l -> balanced (session c l).
Proof.
  intros c l F. apply with_pkg_balanced. intros h p Hp. induction l as [|x r IH]; cbn [calls]; [apply ends_ret; reflexivity|].
  pose proof (Forall_inv F) as X. apply Forall_inv_tail in F. apply ends_bind. eapply ends_mono with (P := fun _ h' => h' = h); [| intros rc h' ->; exact (IH F)].
  destruct x; cbn [call fine] in *.
  - apply add_file_balanced, Hp.
  - now apply merkle_balanced.
  - easy.
  - now apply sign_balanced.
  - now apply (extract_balanced stdout).
  - now apply file_op_balanced.
Qed.

(* C84c: the tool (which installs no allocator), as long as there is memory *)
Definition tool (c : setup) : Prop := se_user c = false /\ se_oom c = false.
Theorem C84_tool_partial : forall c, tool c ->
  balanced act_simple (* create, delete, show *) /\ balanced (act_sign c true) /\ (se_mbed3 c = false -> balanced (act_sign c false)) /\
  (forall k, k <> KeyFile -> balanced (act_verify c k)) /\ (forall w, w <> AddKey -> balanced (act_add c w)) /\
  (forall meta part file, balanced (act_extract meta part file)) /\ (forall grow, balanced (act_set c grow)) /\
  balanced act_compare /\ balanced (act_generate c) /\ (forall ks, balanced (act_transport c ks TrAdd false)).
Proof.
  intros c [U O]. split; [exact simple_balanced|]. split; [apply act_sign_balanced; now left|]. split; [intros M; apply act_sign_balanced; now right|].
  split; [intros k; now apply act_verify_balanced|]. split; [intros w K; now apply act_add_balanced|]. split; [exact act_extract_balanced|].
  split; [intros g; now apply act_set_balanced|]. split; [exact act_compare_balanced|]. split; [now apply act_generate_balanced | intros ks; apply transport_add_balanced].
Qed.
(* ... and all that the other commands leave behind *)
Theorem C84_left_behind_partial : forall c, tool c ->
  (* verify --key, add --encoder key: an mbedTLS context *)
  (forall h, ends (act_verify c KeyFile) h (fun _ h' => h' = h \/ exists i, h' = (i, KPk) :: h)) /\
  (forall h p, holds KFile p h -> ends (add_key c p) h (fun _ h' => h' = h \/ exists i, h' = (i, KPk) :: h)) /\
  (* sign --key: a random generator and its entropy source *)
  (se_mbed3 c = true -> forall h p, holds KFile p h ->
     ends (pkg_sign c p) h (fun rc h' => (rc <> 0 /\ h' = h) \/ exists r e, h' = (r, KRng) :: (e, KEnt) :: h)) /\
  (* transport: a file, and a block of liblzma's *)
  (forall ks w origin h, ends (act_transport c ks w origin) h (fun _ h' =>
     exists l, h' = l ++ h /\ (map snd l = [] \/ map snd l = [KFile] \/ map snd l = [KMem false; KFile]))).
Proof.
  intros c [U O]. split; [intros h; now apply verify_exact|]. split; [intros h p; now apply add_key_exact|].
  split; [intros M h p; now apply sign_exact | intros ks w o h; now apply transport_lzma].
Qed.

(* what goes wrong.  Answers: for a step 0 is success, for an acquisition 1 *)
Definition answers (l : list nat) : nat -> nat := fun n => nth n l 0.
Definition opened : list nat := [1; 0; 0; 0; 0].
Definition std : setup := mkSetup false false false.
Definition custom : setup := mkSetup true false false.
Definition scarce : setup := mkSetup false true false.
Definition mbed3 : setup := mkSetup false false true.
(* one run, starting with nothing: the result, what is left, how much there was *)
Definition run {A} (m : M A) (l : list nat) : option (A * list kind * nat) :=
  match m (answers l) (mkState 0 [] 0) with Some (a, s) => Some (a, map snd (st_held s), st_next s) | None => None end.
Lemma run_some : forall {A} (m : M A) l a ks n, run m l = Some (a, ks, n) ->
  exists o s', m o (mkState 0 [] 0) = Some (a, s') /\ map snd (st_held s') = ks /\ st_next s' = n.
Proof.
  intros A m l a ks n H. unfold run in H. destruct (m (answers l) (mkState 0 [] 0)) as [[a1 s1]|] eqn:E; [|discriminate].
  injection H as <- <- <-. exists (answers l), s1. auto.
Qed.
Lemma run_leaks : forall {A} (m : M A) l a ks n, run m l = Some (a, ks, n) -> ks <> [] -> leaks m ks.
Proof. intros A m l a ks n H N. destruct (run_some m l a ks n H) as (o & s & E & K & _). split; [exact N | exists o, a, s; now split]. Qed.
Lemma run_breaks : forall {A} (m : M A) l, run m l = None -> breaks m.
Proof. intros A m l H. exists (answers l). unfold run in H. destruct (m (answers l) (mkState 0 [] 0)) as [[a s]|]; [discriminate | reflexivity]. Qed.
Tactic Notation "leak" constr(m) constr(l) constr(a) constr(ks) constr(n) :=
  apply (run_leaks m l a ks n); [vm_compute; reflexivity | discriminate].
Tactic Notation "break" constr(m) constr(l) := apply (run_breaks m l); vm_compute; reflexivity.
Tactic Notation "runs" constr(m) constr(l) constr(a) constr(ks) constr(n) :=
  apply (run_some m l a ks n); vm_compute; reflexivity.
(* a key file that can be loaded costs a context *)
Theorem C84_key_context_refuted : leaks (act_verify std KeyFile) [KPk] /\ leaks (with_pkg (add_key std)) [KPk].
Proof. split; [leak (act_verify std KeyFile) opened 0 [KPk] 3 | leak (with_pkg (add_key std)) opened 0 [KPk] 3]. Qed.
(* with an allocator of the user's, bpak_pkg_add_key gives its memory to free *)
Theorem C84_add_key_refuted : breaks (with_pkg (add_key custom)).
Proof. break (with_pkg (add_key custom)) opened. Qed.
(* memory may run out: a NULL pointer is written through *)
Theorem C84_no_memory_refuted : breaks (load_public_key scarce) /\ breaks (with_pkg (add_file_with_merkle_tree scarce)) /\
  breaks (act_set scarce false) /\ breaks (act_set scarce true) /\ breaks (act_generate scarce).
Proof.
  split; [break (load_public_key scarce) ([] : list nat)|].
  split; [break (with_pkg (add_file_with_merkle_tree scarce)) (opened ++ [0; 0; 0; 0; 1])|].
  split; [break (act_set scarce false) [0; 1]|]. split; [break (act_set scarce true) [0; 1] | break (act_generate scarce) [1; 1]].
Qed.
(* mbedTLS 3: every signature *)
Theorem C84_sign_refuted : leaks (act_sign mbed3 false) [KRng; KEnt].
Proof. leak (act_sign mbed3 false) opened 0 [KRng; KEnt] 5. Qed.
(* LZMA: the coder is allocated by malloc and released by the user's function;
   the stream is lost if there is no coder; the coder of a patch is lost if
   applying the patch fails *)
Definition decode_itself (c : setup) (fp : ptr) : M nat := transport_decode c [CLzma] fp fp None.
Theorem C84_lzma_refuted : breaks (transport_bsdiff custom CLzma) /\ leaks (transport_bsdiff std CLzma) [KMem false] /\
  leaks (with_pkg (decode_itself std)) [KMem false] /\ breaks (with_pkg (decode_itself custom)).
Proof.
  split; [break (transport_bsdiff custom CLzma) [0; 0; 1; 0; 0; 1]|].
  split; [leak (transport_bsdiff std CLzma) [0; 0; 1; 0; 0; 1; 0; 5] 5 [KMem false] 3|].
  split; [leak (with_pkg (decode_itself std)) (opened ++ [0; 0; 0; 1; 0; 0; 0; 0; 0; 7]) 7 [KMem false] 2|].
  break (with_pkg (decode_itself custom)) (opened ++ [0; 0; 0; 1]).
Qed.
(* transport --encode and --decode: the output is never closed, also when all
   goes well; the input is not closed if the origin cannot be opened *)
Definition all_well (m : M nat) (l : list kind) (n : nat) : Prop :=
  exists o s', m o (mkState 0 [] 0) = Some (0, s') /\ map snd (st_held s') = l /\ st_next s' = n.
Theorem C84_transport_refuted :
  all_well (act_transport std [] TrEncode true) [KFile] 3 /\ all_well (act_transport std [] TrDecode true) [KFile] 3 /\
  leaks (act_transport std [] TrAdd true) [KFile].
Proof.
  split; [runs (act_transport std [] TrEncode true) (opened ++ opened ++ opened) 0 [KFile] 3|].
  split; [runs (act_transport std [] TrDecode true) (opened ++ opened ++ opened) 0 [KFile] 3|].
  leak (act_transport std [] TrAdd true) opened 1 [KFile] 1.
Qed.
(* closing a package that could not be opened *)
Theorem C84_close_refuted : breaks (x <- pkg_open ;; pkg_close (snd x)).
Proof. break (x <- pkg_open ;; pkg_close (snd x)) [1; 1]. Qed.

(* non-vacuity: runs that succeed, and one that fails after acquiring *)
Example C84_instance : Forall (fine std) [LAddFile; LAddMerkle; LSign; LExtract false; LOther] /\ tool std /\
  all_well (session std [LAddFile; LExtract false; LSign]) [] 5 /\ all_well (transport_bsdiff std CHs) [] 4 /\
  (exists o s', transport_bsdiff std CHs o (mkState 0 [] 0) = Some (9, s') /\ map snd (st_held s') = [] /\ st_next s' = 4).
Proof.
  split; [repeat constructor|]. split; [split; reflexivity|].
  split; [runs (session std [LAddFile; LExtract false; LSign]) (opened ++ [0; 0; 0; 1; 0; 0; 0; 0; 0; 0; 1]) 0 ([] : list kind) 5|].
  split; [runs (transport_bsdiff std CHs) [0; 0; 1; 0; 0; 1; 0; 0] 0 ([] : list kind) 4|].
  runs (transport_bsdiff std CHs) [0; 0; 1; 0; 0; 1; 0; 9] 9 ([] : list kind) 4.
Qed.
