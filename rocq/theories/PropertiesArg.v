(* PropertiesArg.v -- C82: command lines, from the words to the commands.
   Specification: ArgSpec.v; the commands themselves: CliSpec.v. *)
From Coq Require Import String Permutation.
From Verif Require Import Base BaseLemmas HeaderModel CrcModel HashModel MerkleModel VerifyModel PkgModel UtilModel KeystoreModel MbedModel
  CliModel CliSpec CliArgs BspatchModel LzModel TransportModel TransportCliModel ViewModel ArgModel ArgSpec ArgProofs ArgActs ArgMeans ArgIdle ArgMore ArgNamed.
Local Open Scope Z_scope.

Definition w (s : string) : bytes := bytes_of s.
(* the events of the scanner for options read as [l] *)
Definition got (l : list opt) : list oev := map (fun x => EOpt (fst x) (snd x)) l.
Definition getopt (v : verb) : list bytes -> list oev * list bytes :=
  match v with
  | Create => scan os_create ls_create | Add => scan os_add ls_add | Set_ => scan os_set ls_set | Delete => scan os_delete ls_delete
  | Extract => scan os_extract ls_extract | Sign => scan os_sign ls_sign | Verify => scan os_verify ls_verify
  | Transport => scan os_transport ls_transport | Show => scan os_show ls_show | Compare => scan os_compare ls_compare
  | Generate => scan os_generate ls_generate
  end.
Lemma getopt_eq v ws : getopt v ws = scan (os_of v) (ls_of v) ws.
Proof. now destruct v. Qed.

(* C82a: the scanner reads exactly the spellings the GNU conventions allow *)
Theorem C82_options_read v ws l o : spells (syntax_of v) ws l o <-> getopt v ws = (got l, o).
Proof. rewrite getopt_eq. exact (read_iff v ws l o). Qed.
(* so words have one reading *)
Theorem C82_one_reading v ws l1 o1 l2 o2 : spells (syntax_of v) ws l1 o1 -> spells (syntax_of v) ws l2 o2 -> l1 = l2 /\ o1 = o2.
Proof.
  intros S1 S2. apply read_iff in S1, S2. rewrite S1 in S2. injection S2 as E1 E2. split; [now apply ev_map_inj | exact E2].
Qed.

(* C82b: short, long, cut, joined, clustered, moved behind the file name: only
   the last value of every option counts *)
Theorem C82_same_options e fs v ws1 ws2 l1 l2 o : spells (syntax_of v) ws1 l1 o -> spells (syntax_of v) ws2 l2 o ->
  Forall (usable v) l1 -> Forall (usable v) l2 -> (forall c, last_given l1 c = last_given l2 c) ->
  bpak e fs (verb_name v :: ws1) = bpak e fs (verb_name v :: ws2).
Proof. exact (same e fs v ws1 ws2 l1 l2 o). Qed.
Theorem C82_any_order e fs v ws1 ws2 l1 l2 o : spells (syntax_of v) ws1 l1 o -> spells (syntax_of v) ws2 l2 o ->
  Forall (usable v) l1 -> Permutation l1 l2 -> NoDup (map fst l1) ->
  bpak e fs (verb_name v :: ws1) = bpak e fs (verb_name v :: ws2).
Proof.
  intros S1 S2 U P N. apply (same e fs v ws1 ws2 l1 l2 o S1 S2 U).
  - exact (Permutation_Forall P U).
  - intros c. now apply permuted_last.
Qed.

(* C82c: command lines that are refused; no file changes, the status is 255 *)
Definition turned_down (e : env) (fs : fsys) (ws : list bytes) : Prop := bpak e fs ws = (fs, PNothing, Some (Err (-1))) /\ status (Err (-1)) = Some 255.
Definition help_shown (e : env) (fs : fsys) (ws : list bytes) : Prop := bpak e fs ws = (fs, PUsage, Some (Ok tt)) /\ status (Ok tt) = Some 0.
Theorem C82_misspelled e fs v ws : (forall l o, ~ spells (syntax_of v) ws l o) ->
  turned_down e fs (verb_name v :: ws) \/ help_shown e fs (verb_name v :: ws).
Proof. intros H. destruct (refused e fs v ws H) as [R|R]; [left | right]; now split. Qed.
Theorem C82_unusable e fs v ws l1 x l2 o : spells (syntax_of v) ws (l1 ++ x :: l2) o -> Forall (usable v) l1 -> ~ usable v x -> fst x <> ch "h" ->
  turned_down e fs (verb_name v :: ws).
Proof. intros S U X H. split; [exact (unusable e fs v ws l1 x l2 o S U X H) | reflexivity]. Qed.
Theorem C82_help e fs v ws l1 a l2 o : spells (syntax_of v) ws (l1 ++ (ch "h", a) :: l2) o -> Forall (usable v) l1 ->
  help_shown e fs (verb_name v :: ws).
Proof. intros S U. split; [exact (helped e fs v ws l1 a l2 o S U) | reflexivity]. Qed.
Theorem C82_no_package e fs v ws l : spells (syntax_of v) ws l [] -> Forall (usable v) l -> turned_down e fs (verb_name v :: ws).
Proof. intros S U. split; [exact (no_path e fs v ws l S U) | reflexivity]. Qed.
Theorem C82_incomplete e fs v ws l o : spells (syntax_of v) ws l o -> Forall (usable v) l -> incomplete v l -> turned_down e fs (verb_name v :: ws).
Proof. intros S U I. split; [exact (incomplete_fails e fs v ws l o S U I) | reflexivity]. Qed.
Theorem C82_unknown_action e fs w ws : w <> [] -> hd 0 w <> minus -> ~ In w (map bytes_of
    ["create"; "add"; "show"; "sign"; "verify"; "generate"; "transport"; "set"; "compare"; "extract"; "delete"]%string) ->
  turned_down e fs (w :: ws).
Proof.
  intros N H U. split; [|reflexivity]. destruct w as [|c1 r]; [congruence|]. cbn [hd] in H. unfold bpak.
  rewrite (scan_operand (bytes_of "hV") _ (c1 :: r) []); [|destruct r; [exact I | exact H]]. cbn [scan fst snd]. unfold dispatch.
  assert (K : forall s, In (bytes_of s) (map bytes_of ["create"; "add"; "show"; "sign"; "verify"; "generate"; "transport"; "set"; "compare"; "extract"; "delete"]%string) ->
    bytes_eqb (c1 :: r) (bytes_of s) = false) by (intros s J; apply BaseLemmas.bytes_eqb_neq; intros E; apply U; now rewrite E).
  rewrite !K by (apply in_map; cbn; tauto). reflexivity.
Qed.

(* before the command: -h and -V *)
Lemma main_iff x l o : spells syntax_main [x] l o <-> scan (bytes_of "hV") [flag_opt "help" "h"; flag_opt "version" "V"] [x] = (map ev l, o).
Proof.
  apply scan_iff.
  - apply all_diff_ok. vm_compute. reflexivity.
  - apply kind_iff; vm_compute; reflexivity.
  - reflexivity.
Qed.
Theorem C82_before_command e fs x ws :
  (forall l o, spells syntax_main [x] l o -> l <> [] -> help_shown e fs (x :: ws)) /\
  ((forall l o, ~ spells syntax_main [x] l o) -> turned_down e fs (x :: ws) \/ help_shown e fs (x :: ws)).
Proof.
  unfold turned_down, help_shown, bpak. split.
  - intros l o S N. apply main_iff in S. rewrite S. destruct l as [|[c v] l]; [congruence|]. now split.
  - intros H. assert (B : In EBad (fst (scan (bytes_of "hV") [flag_opt "help" "h"; flag_opt "version" "V"] [x]))).
    { apply (scan_unspelled _ _ (sy_short syntax_main)); [apply all_diff_ok; vm_compute; reflexivity | apply kind_iff; vm_compute; reflexivity | reflexivity | exact H]. }
    destruct (scan _ _ [x]) as [[|[c v|] l] o]; cbn [fst] in B; [destruct B | right; now split | left; now split].
Qed.

(* C82h: files whose name is not on the command line do not change, whatever the
   words are (an option can end with its argument) *)
Theorem C82_only_named_files e fs ws p : fst (fst (bpak e fs ws)) p <> fs p -> exists x a, In x ws /\ x = a ++ p.
Proof. intros H. destruct (only_named e fs ws p H) as (x & I & [a E]). now exists x, a. Qed.
Theorem C82_readers_change_nothing e fs v ws : v = Show \/ v = Compare \/ v = Generate -> fst (fst (bpak e fs (verb_name v :: ws))) = fs.
Proof. intros H. apply readers. cbn. destruct H as [->|[->| ->]]; tauto. Qed.
(* a package that does not exist is not made, but by create; create overwrites
   only with --force, or when told to *)
Theorem C82_missing_package e fs v ws l path o : v <> Create -> v <> Generate -> spells (syntax_of v) ws l (path :: o) -> Forall (usable v) l ->
  fs path = None -> nothing_done fs (bpak e fs (verb_name v :: ws)).
Proof. exact (missing e fs v ws l path o). Qed.
Theorem C82_keeps_package e fs ws l path o f : spells (syntax_of Create) ws l (path :: o) -> Forall (usable Create) l -> fs path = Some f ->
  has l "Y" = false -> en_answer e <> Some (ch "Y") -> nothing_done fs (bpak e fs (verb_name Create :: ws)).
Proof. exact (keeps_package e fs ws l path o f). Qed.

(* C82d: a command line that is not refused does the command it asks for, to the
   package it names and to no other file *)
Theorem C82_meaning e fs v ws l path o c f : spells (syntax_of v) ws l (path :: o) -> Forall (usable v) l -> fs path = Some f -> means e fs path l v c ->
  same_outcome (bpak e fs (verb_name v :: ws)) (performed (en_sha e) fs path c f).
Proof. exact (meaning e fs v ws l path o c f). Qed.
Theorem C82_new_package e fs ws l path o : spells (syntax_of Create) ws l (path :: o) -> Forall (usable Create) l -> fs path = None ->
  hash_arg (val l "H") <> None -> sign_arg (val l "S") <> None ->
  same_outcome (bpak e fs (verb_name Create :: ws)) (performed (en_sha e) fs path (CCreate (val l "H") (val l "S")) []).
Proof. exact (meaning_new e fs ws l path o). Qed.
(* the commands with keys (KeystoreModel.v, MbedModel.v) and transport *)
Theorem C82_meaning_keys e fs ws l path o f s b :
  fs path = Some f -> fs s = Some b ->
  (forall name k, spells (syntax_of Add) ws l (path :: o) -> Forall (usable Add) l -> val l "m" = None -> val l "p" = Some name ->
     val l "e" = Some (bytes_of "key") -> val l "f" = Some s -> mbed_load_public_key (en_pub e) b = Ok k ->
     bpak e fs (verb_name Add :: ws) = leaves fs path (cli_add_key (en_sha e) name (k_data k) (has l "F") f)) /\
  (spells (syntax_of Sign) ws l (path :: o) -> Forall (usable Sign) l -> val l "f" = None -> val l "k" = Some s ->
     bpak e fs (verb_name Sign :: ws) = leaves fs path (cli_sign (en_sha e) (en_sg e) (en_junk e) (mbed_load_private_key (en_pri e) b) f)) /\
  (spells (syntax_of Verify) ws l (path :: o) -> Forall (usable Verify) l -> val l "k" = Some s ->
     bpak e fs (verb_name Verify :: ws) =
       leaves fs path (cli_verify (en_sha e) (en_sg e) (en_junk e) (fun _ _ => mbed_load_public_key (en_pub e) b) f)) /\
  (spells (syntax_of Verify) ws l (path :: o) -> Forall (usable Verify) l -> val l "k" = None -> val l "K" = Some s ->
     bpak e fs (verb_name Verify :: ws) = leaves fs path (cli_verify (en_sha e) (en_sg e) (en_junk e)
       (fun ksid kid => keystore_load_key (en_sha e) (mbed_parse_public_key (en_buf e)) b ksid kid None) f)).
Proof.
  intros F Fs. split; [|split; [|split]].
  - intros name k S U Hm Hp He Hf K. exact (meaning_key e fs ws l path o f name s b k S U F Hm Hp He Hf Fs K).
  - intros S U Hf Hk. exact (meaning_sign e fs ws l path o f s b S U F Hf Hk Fs).
  - intros S U Hk. exact (meaning_verify e fs ws l path o f s b S U F Hk Fs).
  - intros S U Hk HK. exact (meaning_keystore e fs ws l path o f s b S U F Hk HK Fs).
Qed.
Theorem C82_meaning_transport e fs ws l path o v : spells (syntax_of Transport) ws l (path :: o) -> Forall (usable Transport) l -> has l "a" = false ->
  (has l "E" = true /\ has l "D" = false /\ v = TEncode) \/ (has l "E" = false /\ has l "D" = true /\ v = TDecode) ->
  exists fs1 r, cli_transport (en_bld e) (en_sha e) (en_sais e) (en_garbage e) fs v path (val l "O") (val l "o") = (fs1, r) /\
    bpak e fs (verb_name Transport :: ws) = (fs1, PNothing, r).
Proof. exact (meaning_transport e fs ws l path o v). Qed.
(* --output: what would be printed goes into that file *)
Theorem C82_into_file e fs ws l path o out f c : spells (syntax_of Extract) ws l (path :: o) -> Forall (usable Extract) l -> fs path = Some f ->
  val l "o" = Some out -> out <> path ->
  (exists name, c = CExtractPart name /\ val l "p" = Some name /\ 0 < arg_id name /\ ident (val l "m") = 0) \/
  (exists name, c = CExtractMeta name (val l "r") /\ val l "m" = Some name /\ 0 < arg_id name /\ ident (val l "p") = 0) ->
  exists f1 printed r, run_cmd (en_sha e) c f = (f1, printed, r) /\
    same_outcome (bpak e fs (verb_name Extract :: ws))
      (match printed with Some b => fs_put (fs_put fs path f1) out b | None => fs_put fs path f1 end, PNothing, Some r).
Proof.
  intros S U F Ho N M. destruct (run_cmd (en_sha e) c f) as [[f1 printed] r] eqn:E. exists f1, printed, r. split; [reflexivity|].
  pose proof (meaning_output e fs ws l path o out f c S U F Ho N M) as K. unfold performed in K. rewrite E in K. unfold to_file in K. now destruct printed.
Qed.

(* the commands that look at packages (ViewModel.v) *)
Ltac start S U := erewrite (reads _ _ _ _ _ _ S U); [|intros ?; reflexivity]; cbv beta iota; rewrite ?arg_val, ?set_has.
Theorem C82_meaning_show e fs ws l path o f x : spells (syntax_of Show) ws l (path :: o) -> Forall (usable Show) l -> fs path = Some f ->
  match val l "m", val l "p", val l "P" with
  | Some m, Some p, _ => x = ShowMeta (arg_id m) (Some (arg_id p))
  | Some m, None, _ => x = ShowMeta (arg_id m) None
  | None, Some p, _ => x = ShowPart (arg_id p)
  | None, None, Some p => x = ShowPartHash (arg_id p)
  | None, None, None => (has l "B" = true /\ x = ShowBinHash) \/ (has l "B" = false /\ has l "H" = true /\ x = ShowHash) \/
                        (has l "B" = false /\ has l "H" = false /\ x = ShowAll)
  end ->
  exists ls r, cli_show (en_sha e) (en_hash e) (en_hex e) x f = (ls, r) /\ bpak e fs (verb_name Show :: ws) = (fs, PShow ls, Some r).
Proof.
  intros S U F X. start S U. rewrite F. destruct (cli_show _ _ _ x f) as [ls r] eqn:E. exists ls, r. split; [reflexivity|].
  assert (W : show_of (val l "m") (val l "p") (val l "P") (has l "B") (has l "H") = x).
  { unfold show_of. destruct (val l "m"), (val l "p"), (val l "P"); cbn [option_map]; rewrite ?id_arg_spec; try (now symmetry).
    destruct X as [[-> ->]|[(-> & -> & ->)|(-> & -> & ->)]]; reflexivity. }
  rewrite W. now rewrite E.
Qed.
Theorem C82_meaning_compare e fs ws l a b o f1 f2 : spells (syntax_of Compare) ws l (a :: b :: o) -> Forall (usable Compare) l ->
  fs a = Some f1 -> fs b = Some f2 ->
  exists ls r, cli_compare (en_text e) f1 f2 = (ls, r) /\ bpak e fs (verb_name Compare :: ws) = (fs, PCompare ls, Some r).
Proof.
  intros S U A B. start S U. rewrite A, B. destruct (cli_compare _ f1 f2) as [ls r]. now exists ls, r.
Qed.
Theorem C82_meaning_id e fs ws l s o : spells (syntax_of Generate) ws l (w "id" :: s :: o) -> Forall (usable Generate) l ->
  bpak e fs (verb_name Generate :: ws) = (fs, PId s (bpak_id s), Some (Ok tt)).
Proof. intros S U. start S U. unfold w. now rewrite BaseLemmas.bytes_eqb_refl. Qed.
Theorem C82_meaning_keystore e fs ws l path o name f : spells (syntax_of Generate) ws l (w "keystore" :: path :: o) -> Forall (usable Generate) l ->
  val l "n" = Some name -> fs path = Some f ->
  exists ks r, cli_generate (mbed_parse_public_key (en_buf e)) f = (ks, r) /\
    bpak e fs (verb_name Generate :: ws) =
      (fs, PKeys (map (fun c => if c =? minus then 95 else c) name) (has l "d") ks (match r with Ok id => Some id | _ => None end), Some (do _ <- r; Ok tt)).
Proof.
  intros S U N F. start S U. unfold w. replace (bytes_eqb (bytes_of "keystore") (bytes_of "id")) with false by reflexivity.
  rewrite BaseLemmas.bytes_eqb_refl, N, F. destruct (cli_generate _ f) as [ks r]. now exists ks, r.
Qed.
(* a generator that does not exist: success *)
Theorem C82_generator_refuted e fs ws l g o : spells (syntax_of Generate) ws l (g :: o) -> Forall (usable Generate) l -> g <> w "id" -> g <> w "keystore" ->
  bpak e fs (verb_name Generate :: ws) = (fs, PNothing, Some (Ok tt)).
Proof.
  intros S U A B. start S U. apply BaseLemmas.bytes_eqb_neq in A, B. unfold w in A, B. now rewrite A, B.
Qed.

(* C82e: options without effect can be left out *)
Theorem C82_idle e fs v ws1 ws2 l o c : spells (syntax_of v) ws1 l o -> spells (syntax_of v) ws2 (without c l) o -> Forall (usable v) l -> idle v l c ->
  bpak e fs (verb_name v :: ws1) = bpak e fs (verb_name v :: ws2).
Proof. exact (idle_same e fs v ws1 ws2 l o c). Qed.

(* C82f: the manual's "transport F --add --part P --encoder E --decoder D" works:
   --part is --part-ref cut short *)
Lemma read v ws l o : scan (os_of v) (ls_of v) ws = (map ev l, o) -> spells (syntax_of v) ws l o.
Proof. apply read_iff. Qed.
Definition doc_options (part enc dec : bytes) : list opt := [(ch "a", None); (ch "r", Some part); (ch "e", Some enc); (ch "d", Some dec)].
Lemma sole (s full : string) (a : bool) (c : string) : long_lookup ls_transport (bytes_of s) = Some (a, ch c) -> stands_for (syntax_of Transport) (bytes_of s) a (ch c).
Proof. intros H. destruct (tables Transport) as (E & N & _). apply (long_lookup_spec (ls_of Transport) N (short_of Transport)) in H. unfold syntax_of. now rewrite <- E. Qed.
Lemma text_no_eq (s : string) : existsb (Z.eqb equals) (bytes_of s) = false -> ~ In equals (bytes_of s).
Proof. intros H I. rewrite <- not_true_iff_false in H. apply H. apply existsb_exists. exists equals. split; [exact I | reflexivity]. Qed.
Theorem C82_manual_transport e fs path part enc dec f : operand path -> fs path = Some f ->
  same_outcome (bpak e fs [w "transport"; path; w "--add"; w "--part"; part; w "--encoder"; enc; w "--decoder"; dec])
    (performed (en_sha e) fs path (CTransportAdd part enc dec) f).
Proof.
  intros O F. change (w "transport") with (verb_name Transport).
  apply (C82_meaning e fs Transport _ (doc_options part enc dec) path []); [| |exact F|now apply mn_transport].
  - apply sp_operand; [exact O|].
    apply (sp_long (syntax_of Transport) (bytes_of "add") (ch "a")); [apply (sole "add" "add" false "a"); vm_compute; reflexivity | discriminate | now apply text_no_eq |].
    apply (sp_long_next (syntax_of Transport) (bytes_of "part") (ch "r")); [apply (sole "part" "part-ref" true "r"); vm_compute; reflexivity | discriminate | now apply text_no_eq |].
    apply (sp_long_next (syntax_of Transport) (bytes_of "encoder") (ch "e")); [apply (sole "encoder" "encoder" true "e"); vm_compute; reflexivity | discriminate | now apply text_no_eq |].
    apply (sp_long_next (syntax_of Transport) (bytes_of "decoder") (ch "d")); [apply (sole "decoder" "decoder" true "d"); vm_compute; reflexivity | discriminate | now apply text_no_eq |].
    apply sp_none.
  - repeat apply Forall_cons; try apply Forall_nil; (split; [cbn; tauto|]; split; [discriminate|]; intros X; discriminate X).
Qed.

(* C82g: what the usage text says and the tool does not take.
   "-D, --decode", "-p, --part", "-e, --encode <name>": *)
Theorem C82_usage_refuted : exists usage : list (list bytes), usage =
    [ [w "pkg"; w "-D"]; [w "pkg"; w "-a"; w "-p"; w "fs"; w "-e"; w "bsdiff"; w "-d"; w "bspatch"];
      [w "pkg"; w "--add"; w "--part"; w "fs"; w "--encode"; w "bsdiff"; w "--decoder"; w "bspatch"] ] /\
  forall e fs ws, In ws usage -> turned_down e fs (w "transport" :: ws).
Proof.
  eexists; split; [reflexivity|]. intros e fs ws [<-|[<-|[<-|[]]]]; split; reflexivity.
Qed.
(* "--": main looks for the action behind it, but the action then takes its own
   name for the package *)
Theorem C82_dashes_refuted e fs v ws : bpak e fs (w "--" :: verb_name v :: ws) = bpak e fs (verb_name v :: verb_name v :: ws).
Proof. destruct v; reflexivity. Qed.
(* --from-string is accepted for a part, but never used: the command fails *)
Theorem C82_part_from_string_refuted e fs ws l path o name : spells (syntax_of Add) ws l (path :: o) -> Forall (usable Add) l ->
  val l "m" = None -> val l "p" = Some name -> val l "f" = None -> snd (bpak e fs (verb_name Add :: ws)) <> Some (Ok tt).
Proof. exact (no_string_part e fs ws l path o name). Qed.

(* non-vacuity: one command line in two spellings.  add -vp fs pkg --from-f=disk
   --enc merkle -Fdont-hash = add --from-file disk -F dont-hash -p fs --encoder=merkle -v -- pkg *)
Definition aw_1 : list bytes := [w "-vp"; w "fs"; w "pkg"; w "--from-f=disk"; w "--enc"; w "merkle"; w "-Fdont-hash"].
Definition aw_2 : list bytes := [w "--from-file"; w "disk"; w "-F"; w "dont-hash"; w "-p"; w "fs"; w "--encoder=merkle"; w "-v"; w "--"; w "pkg"].
Definition aw_l1 : list opt := [(ch "v", None); (ch "p", Some (w "fs")); (ch "f", Some (w "disk")); (ch "e", Some (w "merkle")); (ch "F", Some (w "dont-hash"))].
Definition aw_l2 : list opt := [(ch "f", Some (w "disk")); (ch "F", Some (w "dont-hash")); (ch "p", Some (w "fs")); (ch "e", Some (w "merkle")); (ch "v", None)].
Definition aw_fs : fsys := fun p => if bytes_eqb p (w "pkg") then Some [] else if bytes_eqb p (w "disk") then Some [1; 2; 3] else None.
Theorem C82_instance : spells (syntax_of Add) aw_1 aw_l1 [w "pkg"] /\ spells (syntax_of Add) aw_2 aw_l2 [w "pkg"] /\
  Forall (usable Add) aw_l1 /\ Permutation aw_l1 aw_l2 /\ NoDup (map fst aw_l1) /\
  (forall e, means e aw_fs (w "pkg") aw_l1 Add (CAddMerkle (w "fs") [1; 2; 3] (en_salt e) true)) /\
  idle Add aw_l1 (ch "v") /\ (forall l o, ~ spells (syntax_of Add) [w "--from"; w "disk"; w "pkg"] l o) /\
  spells (syntax_of Delete) [w "pkg"; w "-k"] [(ch "k", None)] [w "pkg"] /\ incomplete Delete [(ch "k", None)] /\
  spells (syntax_of Transport) [w "-Gv"] [(ch "G", None); (ch "v", None)] [] /\ ~ usable Transport (ch "G", None) /\
  spells (syntax_of Show) [w "--part"; w "fs"; w "pkg"] [(ch "p", Some (w "fs"))] [w "pkg"] /\
  spells (syntax_of Generate) [w "keystor"; w "pkg"; w "--name=x-y"] [(ch "n", Some (w "x-y"))] [w "keystor"; w "pkg"] /\
  spells syntax_main [w "--vers"] [(ch "V", None)] [] /\ (forall l o, ~ spells syntax_main [w "-v"] l o).
Proof.
  split; [apply read; vm_compute; reflexivity|]. split; [apply read; vm_compute; reflexivity|].
  split. { repeat apply Forall_cons; try apply Forall_nil; (split; [cbn; tauto|]; split; [discriminate|]; intros _ X; try discriminate X; reflexivity). }
  split.
  { apply NoDup_Permutation.
    - repeat constructor; cbn; intuition discriminate.
    - repeat constructor; cbn; intuition discriminate.
    - intros x. cbn. tauto. }
  split; [repeat constructor; cbn; intuition discriminate|].
  split; [intros e; apply mn_tree with (w "disk"); try reflexivity; discriminate|].
  split; [now left|].
  split. { intros l o S. apply C82_options_read in S. destruct l as [|x l]; [vm_compute in S; discriminate S|]. unfold got in S. cbn [map] in S. vm_compute in S. discriminate S. }
  split; [apply read; vm_compute; reflexivity|]. split; [split; reflexivity|].
  split; [apply read; vm_compute; reflexivity|]. split; [intros [I _]; cbn in I; intuition discriminate|].
  split; [apply read; vm_compute; reflexivity|]. split; [apply read; vm_compute; reflexivity|].
  split; [apply main_iff; vm_compute; reflexivity|].
  intros l o S. apply main_iff in S. destruct l as [|x l]; vm_compute in S; discriminate S.
Qed.
