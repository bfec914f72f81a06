(* PropertiesView.v -- C60, C61: what the viewing commands print *)
From Coq Require Import Lia String.
From Verif Require Import Base BaseLemmas HeaderModel HeaderSpec CrcModel HashModel VerifyModel VerifySpec PkgModel PkgSpec UtilModel UtilSpec CliModel CliSpec
  MerkleApi ViewModel ViewSpec ViewProofs ViewShow ViewWitness.
Local Open Scope Z_scope.
Local Open Scope list_scope.

(* ---- C60 ---- *)
(* the full claim: for all packages p1, p2 the command prints
     report MPlus ms1 es1 ms2 es2
   and succeeds exactly when no line differs.  It is false six ways: an entry
   that file 2 lacks is a NULL dereference; so is no package with a hash tree
   comparable, not even with itself (64-byte buffer); a new part is marked "-"
   instead of "+"; a value that file 2 continues is "no difference"; a part that
   has become shorter can end the command with a read error; different packages
   give exit status 0 *)
Theorem C60_compare_refuted :
  (exists p1 p2 ms1 es1 ms2 es2, package p1 ms1 es1 /\ package p2 ms2 es2 /\ ms2 = [] /\ snd (cli_compare vw_junk (pk_file p1) (pk_file p2)) = UB) /\
  (exists p ms es, package p ms es /\ snd (cli_compare vw_junk (pk_file p) (pk_file p)) = UB) /\
  (exists p1 p2 es1 e, package p1 [] es1 /\ package p2 [] (es1 ++ [e]) /\
     cli_compare vw_junk (pk_file p1) (pk_file p2) = (map (fun e => LPart MSame (fst e)) es1 ++ [LPart MMinus (fst e)], Err E_NOT_FOUND)) /\
  (exists p1 p2 m, package p1 [vw_other [1]] [] /\ package p2 [vw_other [1; 2]] [] /\
     cli_compare vw_junk (pk_file p1) (pk_file p2) = ([LMeta MSame m []], Ok tt)) /\
  (exists p1 p2, package p1 [] [vw_part 5 4096 1024 0] /\ package p2 [] [vw_part 5 4096 512 0] /\
     cli_compare vw_junk (pk_file p1) (pk_file p2) = ([], Err E_READ_ERROR)) /\
  (exists p1 p2 e, package p1 [] [vw_part 5 4096 512 0] /\ package p2 [] [e] /\ fst e = fst (vw_part 5 4096 512 0) /\ e <> vw_part 5 4096 512 0 /\
     cli_compare vw_junk (pk_file p1) (pk_file p2) = ([LPart MStar (fst e)], Ok tt)).
Proof.
  split; [|split; [|split; [|split; [|split]]]].
  - exists (vw_pkg [vw_uuid] []), (vw_pkg [] []), [vw_uuid], [], [], []. split; [vw|]. split; [vw|]. split; [reflexivity|]. vm_compute. reflexivity.
  - exists (vw_pkg [vw_salt] []), [vw_salt], []. split; [vw|]. vm_compute. reflexivity.
  - exists (vw_pkg [] [vw_part 5 4096 512 0]), (vw_pkg [] [vw_part 5 4096 512 0; vw_part 6 4608 512 0]), [vw_part 5 4096 512 0], (vw_part 6 4608 512 0).
    split; [vw|]. split; [vw|]. vm_compute. reflexivity.
  - exists (vw_pkg [vw_other [1]] []), (vw_pkg [vw_other [1; 2]] []), (mkMeta 99 1 0 0 [0;0;0;0]). split; [vw|]. split; [vw|]. vm_compute. reflexivity.
  - exists (vw_pkg [] [vw_part 5 4096 1024 0]), (vw_pkg [] [vw_part 5 4096 512 0]). split; [vw|]. split; [vw|]. vm_compute. reflexivity.
  - exists (vw_pkg [] [vw_part 5 4096 512 0]), (vw_pkg [] [vw_part 5 4096 512 1]), (vw_part 5 4096 512 1).
    split; [vw|]. split; [vw|]. split; [reflexivity|]. split; [vm_compute; discriminate|]. vm_compute. reflexivity.
Qed.
Print Assumptions C60_compare_refuted.
(* missing: entries of file 1 that file 2 lacks or has with another length,
   entries whose text does not fit in 64 bytes, parts that reach past the end of
   file 2.  The lines are those of the legend except for the last group: parts
   only in file 2 are marked "-" *)
Theorem C60_compare_partial : forall p1 p2 es1 es2 ms1 ms2 junk,
  package p1 ms1 es1 -> package p2 ms2 es2 -> zlen junk = 64 ->
  (forall e, In e ms1 -> exists e2, find (same_key e) ms2 = Some e2 /\ zlen (e_val e2) = zlen (e_val e)) ->
  Forall (printable 64) (ms1 ++ ms2) ->
  Forall (fun e => existsb (same_id e) es2 = true -> zlen (snd e) <= behind (p_id (fst e)) es2) es1 ->
  Forall2 line_is (fst (cli_compare junk (pk_file p1) (pk_file p2))) (report MMinus ms1 es1 ms2 es2) /\
  snd (cli_compare junk (pk_file p1) (pk_file p2)) = compare_status ms1 es1 ms2 es2.
Proof. exact compare_reports. Qed.
Print Assumptions C60_compare_partial.
Theorem C60_same_package_partial : forall p ms es junk, package p ms es -> zlen junk = 64 -> Forall (printable 64) ms ->
  Forall2 line_is (fst (cli_compare junk (pk_file p) (pk_file p))) (map (RMeta MSame) ms ++ map (fun e => RPart MSame (fst e)) es) /\
  snd (cli_compare junk (pk_file p) (pk_file p)) = Ok tt.
Proof. exact compare_itself. Qed.
Print Assumptions C60_same_package_partial.
(* the first two refutations in general *)
Theorem C60_fatal_entries : forall p1 p2 es1 es2 ms1 ms2 junk,
  package p1 ms1 es1 -> package p2 ms2 es2 -> zlen junk = 64 ->
  (exists e, In e ms1 /\ (find (same_key e) ms2 = None \/ (hash_entry e /\ 32 <= zlen (e_val e)))) \/
  (exists e, In e ms2 /\ find (same_key e) ms1 = None /\ hash_entry e /\ 32 <= zlen (e_val e)) ->
  snd (cli_compare junk (pk_file p1) (pk_file p2)) = UB.
Proof. exact compare_crashes. Qed.
Print Assumptions C60_fatal_entries.
Example C60_instance :
  package (vw_pkg vw_ms1 vw_es1) vw_ms1 vw_es1 /\ package (vw_pkg vw_ms2 vw_es2) vw_ms2 vw_es2 /\ zlen vw_junk = 64 /\
  (forall e, In e vw_ms1 -> exists e2, find (same_key e) vw_ms2 = Some e2 /\ zlen (e_val e2) = zlen (e_val e)) /\
  Forall (printable 64) (vw_ms1 ++ vw_ms2) /\
  Forall (fun e => existsb (same_id e) vw_es2 = true -> zlen (snd e) <= behind (p_id (fst e)) vw_es2) vw_es1 /\
  map (fun l => match l with RMeta k e => (k, e_id e) | RPart k p => (k, p_id p) end) (report MMinus vw_ms1 vw_es1 vw_ms2 vw_es2) =
    [(MSame, ID_BPAK_PACKAGE); (MStar, ID_BPAK_VERSION); (MPlus, ID_KEYSTORE_PROVIDER_ID);
     (MSame, 5); (MStar, 6); (MMinus, 7); (MMinus, 8)] /\
  compare_status vw_ms1 vw_es1 vw_ms2 vw_es2 = Err E_NOT_FOUND.
Proof.
  split; [apply vw_ok; exact vw_ok1|]. split; [apply vw_ok; exact vw_ok2|]. split; [reflexivity|]. split; [|split; [|split; [|split]]].
  - intros e [<-|[<-|[]]]; eexists; split; vm_compute; reflexivity.
  - cbn [app vw_ms1 vw_ms2]. repeat (apply Forall_cons; [split; [vm_compute; discriminate|split; [intros [X|X]; discriminate X|
      intros X; first [discriminate X|split; [vm_compute; tauto|vm_compute; discriminate]]]]|]). constructor.
  - unfold vw_es1. repeat (apply Forall_cons; [intros X; first [vm_compute in X; discriminate X|vm_compute; discriminate]|]). constructor.
  - vm_compute. reflexivity.
  - vm_compute. reflexivity.
Qed.

(* ---- C61 ---- *)
(* the full claim: for all packages `bpak show` prints the report below.  False
   three ways: a version of more than 128 bytes is shown as the text of the entry
   before it; --hash on a damaged package prints 64 bytes of the stack and
   succeeds; no package with SHA-512 can be shown (C61_sha512_refuted) *)
Definition vw_long : mentry := mkEntry ID_BPAK_VERSION 0 (repeat 49 129 ++ [0]).
Theorem C61_show_refuted :
  (exists p m1 m2 t1 t2 s, package p [vw_uuid; vw_long] [] /\ m_id m1 = ID_BPAK_PACKAGE /\ m_id m2 = ID_BPAK_VERSION /\ t2 <> [] /\
     cli_show toy_sha vw_junk (zeros 128) ShowAll (pk_file p) = ([t1; SMeta m1 s; SMeta m2 s] ++ t2, Ok tt)) /\
  (exists f s, cli_show toy_sha vw_junk (zeros 128) ShowHash f = ([SText s], Ok tt) /\ hex_lower s vw_junk /\
     snd (cli_show toy_sha vw_junk (zeros 128) ShowBinHash f) = Err E_READ_ERROR).
Proof.
  split.
  - exists (vw_pkg [vw_uuid; vw_long] []), (mkMeta ID_BPAK_PACKAGE 16 0 0 [0;0;0;0]), (mkMeta ID_BPAK_VERSION 130 16 0 [0;0;0;0]).
    set (x := cli_show toy_sha vw_junk (zeros 128) ShowAll (pk_file (vw_pkg [vw_uuid; vw_long] []))).
    exists (nth 0 (fst x) SWarn), (skipn 3 (fst x)), (bytes_of "01020304-0506-0708-090a-0b0c0d0e0f10"%string).
    split; [vw|]. split; [reflexivity|]. split; [reflexivity|]. split; [vm_compute; discriminate|]. vm_compute. reflexivity.
  - exists (ztake 5000 (pk_file (vw_pkg vw_ms1 vw_es1))), (flat_map (UtilModel.hex_pad false 2) vw_junk).
    split; [vm_compute; reflexivity|]. split; [apply hex_pad_2; repeat constructor; lia|]. vm_compute. reflexivity.
Qed.
Print Assumptions C61_show_refuted.
(* missing: texts that do not fit in 128 bytes, SHA-512 *)
Theorem C61_show_partial : forall sha p ms (es : list (parth * bytes)) junk hex,
  package p ms es -> good_hash sha -> hash_supported (h_hash_kind (pk_header p)) = true -> h_hash_kind (pk_header p) <> HASH_SHA512 ->
  zlen hex = 128 -> Forall (printable 128) ms ->
  exists ls, cli_show sha junk hex ShowAll (pk_file p) = (ls, Ok tt) /\ show_report sha p ms es ls.
Proof. intros. now apply show_all_ok. Qed.
Print Assumptions C61_show_partial.
Theorem C61_sha512_refuted : forall sha p ms (es : list (parth * bytes)) junk hex,
  package p ms es -> good_hash sha -> h_hash_kind (pk_header p) = HASH_SHA512 -> zlen hex = 128 -> Forall (printable 128) ms ->
  snd (cli_show sha junk hex ShowAll (pk_file p)) = UB.
Proof. intros sha p ms es junk hex P G K L F. apply (show_all_ok sha p ms es junk hex P G); auto. rewrite K. reflexivity. Qed.
Print Assumptions C61_sha512_refuted.
(* the warning is printed exactly if the payload does not match the header; if
   it is not printed, the hash shown is that of the header as it is *)
Theorem C61_warning : forall sha p ms (es : list (parth * bytes)) ls,
  package p ms es -> good_hash sha -> hash_supported (h_hash_kind (pk_header p)) = true -> show_report sha p ms es ls ->
  (In SWarn ls <-> ztake (digest_len (h_hash_kind (pk_header p))) (h_payload_hash (pk_header p)) <> sha (h_hash_kind (pk_header p)) (covered es)) /\
  (~ In SWarn ls -> current_header sha (pk_header p) es = pk_header p).
Proof. intros sha p ms es ls (H & _). now apply (warn_iff sha p ms es ls). Qed.
Print Assumptions C61_warning.
(* --hash, --binary-hash *)
Theorem C61_hash : forall sha p ms (es : list (parth * bytes)) junk hex,
  package p ms es -> good_hash sha -> hash_supported (h_hash_kind (pk_header p)) = true ->
  let d := header_digest sha (current_header sha (pk_header p) es) in
  cli_show sha junk hex ShowBinHash (pk_file p) = ([SRaw d], Ok tt) /\
  (exists s, hex_lower s d /\ cli_show sha junk hex ShowHash (pk_file p) = ([SText s], Ok tt)).
Proof. exact show_hash_ok. Qed.
Print Assumptions C61_hash.
(* the second refutation in general *)
Theorem C61_hash_of_damaged : forall sha (f : bytes) junk hex, let h := dec_header (ztake 4096 f) in
  4096 <= zlen f -> valid_header h = Ok tt -> Forall (fun q => wf_part q /\ stored_size q < 2^64) (h_parts h) ->
  hash_supported (h_hash_kind h) = false \/ ~ payload_present f 4096 (h_parts h) ->
  cli_show sha junk hex ShowHash f = ([SText (flat_map (UtilModel.hex_pad false 2) junk)], Ok tt) /\
  (exists e, cli_show sha junk hex ShowBinHash f = ([], Err e)).
Proof. exact show_hash_broken. Qed.
Print Assumptions C61_hash_of_damaged.
(* --meta and --part: ids are not 0 *)
Theorem C61_meta_partial : forall sha p ms (es : list (parth * bytes)) junk hex id part, package p ms es -> id <> 0 ->
  match find (selects id part) ms with
  | Some e => printable 128 e -> exists s, shown_text e s /\
      cli_show sha junk hex (ShowMeta id part) (pk_file p) = (if zlen s =? 0 then [] else [SText s], Ok tt)
  | None => cli_show sha junk hex (ShowMeta id part) (pk_file p) = ([], Err E_MISSING_META_DATA)
  end.
Proof. exact show_metas_cmd. Qed.
Print Assumptions C61_meta_partial.
Theorem C61_part : forall sha p ms (es : list (parth * bytes)) junk hex id, package p ms es -> id <> 0 -> good_hash sha -> zlen hex = 128 ->
  match find (fun e : parth * bytes => p_id (fst e) =? id) es with
  | Some e => cli_show sha junk hex (ShowPart id) (pk_file p) = ([SFound id (p_size (fst e))], Ok tt) /\
      exists s, hex_lower s (sha HASH_SHA256 (part_data e)) /\ cli_show sha junk hex (ShowPartHash id) (pk_file p) = ([SText s], Ok tt)
  | None => cli_show sha junk hex (ShowPart id) (pk_file p) = ([], Err E_NOT_FOUND) /\
      cli_show sha junk hex (ShowPartHash id) (pk_file p) = ([], Err E_NOT_FOUND)
  end.
Proof. exact show_part_ok. Qed.
Print Assumptions C61_part.
Example C61_instance :
  package (vw_pkg (vw_ms1 ++ [vw_salt]) vw_es1) (vw_ms1 ++ [vw_salt]) vw_es1 /\ good_hash toy_sha /\
  hash_supported (h_hash_kind (pk_header (vw_pkg (vw_ms1 ++ [vw_salt]) vw_es1))) = true /\
  h_hash_kind (pk_header (vw_pkg (vw_ms1 ++ [vw_salt]) vw_es1)) <> HASH_SHA512 /\
  Forall (printable 128) (vw_ms1 ++ [vw_salt]) /\
  find (selects ID_BPAK_VERSION None) vw_ms1 = Some (vw_version "1.0") /\
  part_data (vw_part 5 4096 600 1) = repeat 1 600 /\
  package (vw_kind HASH_SHA512 (vw_pkg vw_ms1 vw_es1)) vw_ms1 vw_es1 /\
  (let f := ztake 5000 (pk_file (vw_pkg vw_ms1 vw_es1)) in
   valid_header (dec_header (ztake 4096 f)) = Ok tt /\ Forall (fun q => wf_part q /\ stored_size q < 2^64) (h_parts (dec_header (ztake 4096 f))) /\ ~ payload_present f 4096 (h_parts (dec_header (ztake 4096 f)))).
Proof.
  split; [vw|]. split; [exact toy_sha_good|]. split; [reflexivity|]. split; [discriminate|]. split.
  { cbn [app vw_ms1]. repeat (apply Forall_cons; [split; [vm_compute; discriminate|split; [intros [X|X]; first [discriminate X|vm_compute; discriminate]|
      intros X; first [discriminate X|split; [vm_compute; tauto|vm_compute; discriminate]]]]|]). constructor. }
  split; [vm_compute; reflexivity|]. split; [vm_compute; reflexivity|]. split; [apply vw_kind_ok; [vm_compute; split; reflexivity|apply vw_ok; exact vw_ok1]|].
  cbv zeta. set (f := ztake 5000 (pk_file (vw_pkg vw_ms1 vw_es1))).
  assert (D : dec_header (ztake 4096 f) = pk_header (vw_pkg vw_ms1 vw_es1)) by (vm_compute; reflexivity). rewrite D.
  pose proof (vw_ok vw_ms1 vw_es1 vw_ok1) as (H & V & _). split; [exact V|]. split; [exact (holds_sizes _ _ H)|].
  vm_compute. intros C. inversion C as [|? ? C1 C2]; subst. destruct C1 as [C1|C1]; [discriminate C1|exact (C1 eq_refl)].
Qed.
