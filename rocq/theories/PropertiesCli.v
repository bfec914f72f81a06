(* PropertiesCli.v -- C52 to C58: the bpak command line tool *)
From Coq Require Import String.
From Verif Require Import BaseLemmas HeaderModel HeaderSpec HeaderHistory CrcModel HashModel MerkleModel MerkleSpec MerkleApi
  VerifyModel VerifySpec VerifyProofs VerifySign VerifyWitness PkgModel PkgSpec PkgDelete PkgHistory PkgForget UtilModel UtilSpec KeystoreModel
  CliModel CliSpec CliArgs CliNumbers CliProofs CliSign CliClaims CliWitness.
Local Open Scope Z_scope.
Local Open Scope list_scope.

(* ---- C52: names and numbers ---- *)
(* "0x" and hexadecimal digits: the id with that number *)
Theorem C52_number_arguments s v : hex_num s v -> v < 2^64 -> id_arg (bytes_of "0x" ++ s) = v mod 2^32.
Proof. exact (hex_arg s v). Qed.
Print Assumptions C52_number_arguments.
Theorem C52_name_arguments s : ztake 2 s <> bytes_of "0x" -> id_arg s = bpak_id s.
Proof. exact (name_arg s). Qed.
Print Assumptions C52_name_arguments.
(* every file and every metadata entry of a package can be addressed by its number *)
Theorem C52_parts_by_number sha f w s x : good_hash sha -> stored sha f w -> In x (w_files w) -> hex_num s (f_id x) ->
  run_cmd sha (CExtractPart (bytes_of "0x" ++ s)) f = (f, Some (f_data x), Ok tt).
Proof. exact (extract_by_number sha f w s x). Qed.
Print Assumptions C52_parts_by_number.
Theorem C52_metadata_by_number sha f w e s t : good_hash sha -> stored sha f w -> In e (w_metas w) -> hex_num s (e_id e) -> hex_num t (e_ref e) ->
  run_cmd sha (CExtractMeta (bytes_of "0x" ++ s) (Some (bytes_of "0x" ++ t))) f = (f, Some (e_val e), Ok tt).
Proof. exact (extract_meta_by_number sha f w e s t). Qed.
Print Assumptions C52_metadata_by_number.
(* missing: names starting with 0x, see below *)
Theorem C52_parts_by_name_partial sha f w name data dh f1 out : good_hash sha -> stored sha f w -> fits w (CAddPart name data dh) = true ->
  ztake 2 name <> bytes_of "0x" -> run_cmd sha (CAddPart name data dh) f = (f1, out, Ok tt) ->
  run_cmd sha (CExtractPart name) f1 = (f1, Some data, Ok tt).
Proof. exact (add_then_extract sha f w name data dh f1 out). Qed.
Print Assumptions C52_parts_by_name_partial.
Theorem C52_parts_by_name_refuted : exists name data, fits (mkWorld 1 2 0 0 [] [] []) (CAddPart name data false) = true /\
  snd (run_cmds toy_sha [new; CAddPart name data false; CExtractPart name] []) = [(None, Ok tt); (None, Ok tt); (None, Err E_NOT_FOUND)].
Proof. exists (b "0x1"), (b "data"). exact hexname_unreachable. Qed.
Print Assumptions C52_parts_by_name_refuted.
Example C52_instance : hex_num (bytes_of "1aF") 431 /\ stored toy_sha (fst (run_cmds toy_sha [new] [])) (mkWorld 1 2 0 0 [] [] []) /\
  fits (mkWorld 1 2 0 0 [] [] []) (CAddPart (bytes_of "kernel") [1;2;3] true) = true.
Proof.
  split; [|split; [exact new_stored|vm_compute; reflexivity]].
  change (bytes_of "1aF") with ((([] ++ [49]) ++ [97]) ++ [70]). change 431 with (16 * (16 * (16 * 0 + 1) + 10) + 15).
  repeat apply hex_num_snoc; try constructor; cbn; lia.
Qed.

(* ---- C53: every history of commands ---- *)
(* the commands run one after the other on a package do what [spec_cmd] says,
   up to the first one beyond the tool's limits *)
Theorem C53_command_histories sha : good_hash sha -> forall cs f w, stored sha f w ->
  exists done rest xs w', cs = done ++ rest /\ spec_cmds sha w done xs w' /\
    snd (run_cmds sha done f) = xs /\ stored sha (fst (run_cmds sha done f)) w' /\
    match rest with [] => True | c :: _ => fits w' c = false end.
Proof. exact (cmds_ok sha). Qed.
Print Assumptions C53_command_histories.
(* create makes a package of whatever was there *)
Theorem C53_create sha hash sign f hk sk : good_hash sha -> hash_named hash = Some hk -> sign_named sign = Some sk ->
  exists f', run_cmd sha (CCreate hash sign) f = (f', None, Ok tt) /\ stored sha f' (mkWorld hk sk 0 0 [] [] []).
Proof.
  intros G Hh Hs. cbn [run_cmd]. pose proof (create_ok sha hash sign f G) as C. rewrite Hh, Hs in C.
  destruct (cli_create sha hash sign f) as [[f' out] r]. destruct C as (-> & -> & p & E & S). exists f'. split; [reflexivity|].
  apply stored_st. eauto.
Qed.
Print Assumptions C53_create.
(* a stored package is one that the library opens, with these files *)
Theorem C53_stored_opens sha f w : good_hash sha -> stored sha f w ->
  exists p, pkg_open sha true f = (f, Ok p) /\ pkg_files p (w_files w) /\
    metas_are (h_meta (pk_header p)) (h_metadata (pk_header p)) (w_metas w).
Proof.
  intros G S. apply stored_st in S as (p & <- & S). exists p. split; [now apply (st_open _ _ w)|].
  split; [exact (pi_files _ _ _ (st_inv _ _ _ S))|exact (CliMeta.hm_are _ _ (st_hm _ _ _ S))].
Qed.
Print Assumptions C53_stored_opens.
(* seven commands within the limits; a longer session and its output *)
Example C53_instance : stored toy_sha (fst (run_cmds toy_sha [new] [])) (mkWorld 1 2 0 0 [] [] []) /\
  (exists xs w', spec_cmds toy_sha (mkWorld 1 2 0 0 [] [] []) plain_session xs w') /\
  snd (run_cmds toy_sha session []) =
  [ (None, Ok tt); (None, Ok tt); (None, Ok tt); (None, Ok tt); (None, Ok tt); (None, Ok tt); (None, Ok tt); (None, Ok tt);
    (None, Err E_EXISTS); (Some (b "some bytes"), Ok tt); (Some [240; 255; 255; 255; 255; 255; 255; 255], Ok tt); (None, Err E_NOT_FOUND) ].
Proof.
  split; [exact new_stored|]. split; [|exact session_runs].
  destruct (cmds_ok toy_sha toy_sha_good plain_session _ _ new_stored) as (done & rest & xs & w' & E & S & _ & _ & R).
  destruct rest as [|c rest]; [rewrite app_nil_r in E; rewrite E; eauto|]. exfalso.
  pose proof (all_fit_app toy_sha _ done c rest xs w' ltac:(rewrite <- E; exact plain_session_fits) S) as F. congruence.
Qed.

(* ---- C54: set changes one value ---- *)
(* missing: texts that need more room than the old value while a longer value
   is stored behind it *)
Theorem C54_set_keeps_others_partial sha f w name s enc f' out r m ref : good_hash sha -> stored sha f w -> fits w (CSetMeta name s enc) = true ->
  roomy w (bpak_id name) s enc -> run_cmd sha (CSetMeta name s enc) f = (f', out, r) ->
  fits w (CExtractMeta m ref) = true -> (arg_id m, ref_id arg_id ref) <> (bpak_id name, 0) ->
  snd (fst (run_cmd sha (CExtractMeta m ref) f')) = snd (fst (run_cmd sha (CExtractMeta m ref) f)).
Proof. exact (set_frame sha f w name s enc f' out r m ref). Qed.
Print Assumptions C54_set_keeps_others_partial.
Theorem C54_set_reads_back sha f w name s f' out m : good_hash sha -> stored sha f w -> fits w (CSetMeta name s None) = true ->
  run_cmd sha (CSetMeta name s None) f = (f', out, Ok tt) -> text m = true -> arg_id m = bpak_id name ->
  exists n, run_cmd sha (CExtractMeta m None) f' = (f', Some (s ++ [0] ++ zeros n), Ok tt).
Proof. exact (set_reads sha f w name s f' out m). Qed.
Print Assumptions C54_set_reads_back.
(* a longer text for "a" destroys half of "b" *)
Theorem C54_set_keeps_others_refuted : exists cs name s m v v',
  last_of (snd (run_cmds toy_sha (cs ++ [CExtractMeta m None]) [])) = (Some v, Ok tt) /\
  snd (last_of (snd (run_cmds toy_sha (cs ++ [CSetMeta name s None]) []))) = Ok tt /\ arg_id m <> bpak_id name /\
  last_of (snd (run_cmds toy_sha (cs ++ [CSetMeta name s None; CExtractMeta m None]) [])) = (Some v', Ok tt) /\ v' <> v.
Proof.
  exists set_cs, (b "a"), (b "a longer text"), (b "b"), (b "0123456789abcdef" ++ [0]), (b "01234567" ++ zeros 9).
  destruct set_cuts as (A & B & C). split; [exact A|]. split; [vm_compute; reflexivity|]. split; [vm_compute; discriminate|]. split; [exact C|]. vm_compute; discriminate.
Qed.
Print Assumptions C54_set_keeps_others_refuted.
(* a package with one entry, set to a longer text *)
Example C54_instance : let w := mkWorld 1 2 0 0 [] [] [mkEntry (bpak_id (b "a")) 0 (b "x" ++ [0])] in
  fits w (CSetMeta (b "a") (b "a longer text") None) = true /\ roomy w (bpak_id (b "a")) (b "a longer text") None /\
  snd (run_cmds toy_sha [new; CAddMeta (b "a") None (FromString (b "x")) None; CSetMeta (b "a") (b "a longer text") None; CExtractMeta (b "a") None] []) =
    [(None, Ok tt); (None, Ok tt); (None, Ok tt); (Some (b "a longer text" ++ [0]), Ok tt)].
Proof.
  cbv zeta. split; [vm_compute; reflexivity|]. split; [|vm_compute; reflexivity].
  intros a e l E _. right; right. cbn [w_metas] in E. destruct a as [|a1 [|a2 a]]; cbn [app] in E; [injection E as _ <-; constructor|discriminate|discriminate].
Qed.

(* ---- C55: no command leaves its buffers ---- *)
(* missing: everything beyond the limits of [fits] *)
Theorem C55_tool_safe_partial sha f w c : good_hash sha -> stored sha f w -> fits w c = true ->
  snd (run_cmd sha c f) = Ok tt \/ exists e, snd (run_cmd sha c f) = Err e.
Proof.
  intros G S F. pose proof (run_one sha c f w G S F) as A. destruct (run_cmd sha c f) as [[f' out] r]. cbn [snd]. destruct A as (w' & _ & A).
  exact (spec_returns sha w c w' out r A).
Qed.
Print Assumptions C55_tool_safe_partial.
(* a text of 65535 bytes: its length is stored in 16 bits, the text is copied *)
Theorem C55_set_refuted : exists s, text s = true /\
  last_of (snd (run_cmds toy_sha [new; CAddMeta (b "a") None (FromString (b "x")) None; CSetMeta (b "a") s None] [])) = (None, UB).
Proof. exists long. exact set_long. Qed.
Print Assumptions C55_set_refuted.
(* a signature file above 512 bytes *)
Theorem C55_sign_refuted : exists s, all_bytes s = true /\ last_of (snd (run_cmds toy_sha [new; CSignRaw (Some s)] [])) = (None, UB).
Proof. exists (repeat 1 (Z.to_nat 513)). split; [vm_compute; reflexivity|exact sign_long]. Qed.
Print Assumptions C55_sign_refuted.
(* a file of 1920 bytes without a zero byte given to an encoder: read as a string *)
Theorem C55_encoder_refuted : exists c, all_bytes c = true /\
  last_of (snd (run_cmds toy_sha [new; CAddMeta (b "a") None (FromFile (Some c)) (Some (b "integer"))] [])) = (None, UB).
Proof. exists (repeat 49 (Z.to_nat 1920)). split; [vm_compute; reflexivity|exact decode_long]. Qed.
Print Assumptions C55_encoder_refuted.
(* and a longer metadata file is cut without an error *)
Theorem C55_metadata_file_cut : exists c v, zlen v < zlen c /\
  last_of (snd (run_cmds toy_sha [new; CAddMeta (b "a") None (FromFile (Some c)) None; CExtractMeta (b "a") None] [])) = (Some v, Ok tt).
Proof. exists (repeat 49 (Z.to_nat 3000)), (repeat 49 (Z.to_nat 1920)). split; [vm_compute; reflexivity|exact meta_cut]. Qed.
Print Assumptions C55_metadata_file_cut.
Example C55_instance : stored toy_sha (fst (run_cmds toy_sha [new] [])) (mkWorld 1 2 0 0 [] [] []) /\
  fits (mkWorld 1 2 0 0 [] [] []) (CAddMeta (b "a") (Some (b "p")) (FromFile (Some (repeat 255 (Z.to_nat 1920)))) None) = true.
Proof. split; [exact new_stored|vm_compute; reflexivity]. Qed.

(* ---- C56: build, sign, verify ---- *)
(* a package built with any adding commands, signed with a key, verifies with
   the matching public key; signing leaves everything else as it was *)
Theorem C56_build_sign_verify {K} sha (sg : sigscheme K) pub_of junk1 junk2 hash sign hk sk f0 cs : good_hash sha -> correct_scheme sg pub_of ->
  hash_named hash = Some hk -> sign_named sign = Some sk -> forallb build_cmd cs = true ->
  exists f1 done rest xs w, run_cmd sha (CCreate hash sign) f0 = (f1, None, Ok tt) /\ cs = done ++ rest /\
    spec_cmds sha (mkWorld hk sk 0 0 [] [] []) done xs w /\ match rest with [] => True | c :: _ => fits w c = false end /\
    let f := fst (run_cmds sha done f1) in stored sha f w /\
    forall key s (find_key : Z -> Z -> res K),
      sg_sign sg (sha (w_hash w) (enc_header (unsigned (dec_header (ztake 4096 f))))) (w_hash w) key = Ok s ->
      find_key (w_keystore w) (w_key w) = Ok (pub_of key) ->
      exists f', cli_sign sha sg junk1 (Ok key) f = (f', None, Ok tt) /\ stored sha f' (set_sig w s) /\
        cli_verify sha sg junk2 find_key f' = (f', None, Ok tt).
Proof.
  intros G C Hh Hs B. destruct (C53_create sha hash sign f0 hk sk G Hh Hs) as (f1 & E1 & S1).
  destruct (cmds_ok sha G cs f1 _ S1) as (done & rest & xs & w & E & Sc & _ & S & R).
  exists f1, done, rest, xs, w. split; [exact E1|]. split; [exact E|]. split; [exact Sc|]. split; [exact R|]. cbv zeta. split; [exact S|].
  intros key s find_key Sg Fk.
  assert (T : trees_right sha w).
  { eapply (builds_keep sha _ done); eauto; [|apply right_new]. rewrite E, forallb_app in B. now apply andb_prop in B as [B _]. }
  destruct (sign_then_verify_cli sha sg pub_of junk1 junk2 _ w key s find_key G C S Sg) as (f' & A1 & A2 & A3). exists f'. auto.
Qed.
Print Assumptions C56_build_sign_verify.
(* the key that verify looks for in a keystore package *)
Theorem C56_keystore sha parse fk wk v f : good_hash sha -> stored sha fk wk ->
  In (mkEntry ID_KEYSTORE_PROVIDER_ID 0 v) (w_metas wk) -> zlen v = 4 -> In f (w_files wk) -> zlen (f_data f) <= 512 ->
  keystore_load_key sha parse fk (unle v) (f_id f) None =
    match parse (f_data f) with Ok k => Ok (with_id k (f_id f)) | Err e => Err e | UB => UB | Stuck => Stuck end.
Proof. exact (keystore_has_key sha parse fk wk v f). Qed.
Print Assumptions C56_keystore.
Example C56_instance : correct_scheme toy_sig (fun k => k) /\ hash_named (Some (b "sha512")) = Some 3 /\ sign_named (Some (b "rsa4096")) = Some 1 /\
  forallb build_cmd [CAddMerkle (b "fs") cw_block cw_salt false; CSetIds (Some (b "key")) (Some (b "keys"))] = true /\
  let f := fst (run_cmds toy_sha [CCreate (Some (b "sha512")) (Some (b "rsa4096")); CAddMerkle (b "fs") cw_block cw_salt false;
                                   CSetIds (Some (b "key")) (Some (b "keys"))] []) in
  let find_key := fun ks k => if (ks =? bpak_id (b "keys")) && (k =? bpak_id (b "key")) then Ok 99 else Err E_KEY_NOT_FOUND in
  snd (cli_sign toy_sha toy_sig (zeros 64) (Ok 99) f) = Ok tt /\
  snd (cli_verify toy_sha toy_sig (zeros 64) find_key (fst (fst (cli_sign toy_sha toy_sig (zeros 64) (Ok 99) f)))) = Ok tt.
Proof. split; [exact toy_sig_correct|]. repeat split; vm_compute; reflexivity. Qed.

(* ---- C57: integers ---- *)
Theorem C57_decimal s r v : dec_num s v -> hd 48 s <> 48 -> no_digit r -> strtol0 (s ++ r) = if v <? 2^63 then Some v else None.
Proof. exact (strtol_decimal s r v). Qed.
Print Assumptions C57_decimal.
Theorem C57_negative s r v : dec_num s v -> hd 48 s <> 48 -> no_digit r -> strtol0 (45 :: s ++ r) = if v <=? 2^63 then Some (- v) else None.
Proof. exact (strtol_negative s r v). Qed.
Print Assumptions C57_negative.
Theorem C57_hexadecimal s v : hex_num s v -> s <> [] -> strtol0 (bytes_of "0x" ++ s) = if v <? 2^63 then Some v else None.
Proof. exact (strtol_hex s v). Qed.
Print Assumptions C57_hexadecimal.
(* missing: values from 2^63 on *)
Theorem C57_integer_stored_partial sha f w name s v f' out r m : good_hash sha -> stored sha f w ->
  fits w (CAddMeta name None (FromString s) (Some (bytes_of "integer"))) = true -> strtol0 s = Some v ->
  run_cmd sha (CAddMeta name None (FromString s) (Some (bytes_of "integer"))) f = (f', out, r) -> zlen s < 1920 ->
  text m = true -> arg_id m = bpak_id name -> r = Ok tt ->
  run_cmd sha (CExtractMeta m None) f' = (f', Some (le 8 (v mod 2^64)), Ok tt).
Proof. exact (integer_stored sha f w name s v f' out r m). Qed.
Print Assumptions C57_integer_stored_partial.
(* 2^63 is refused although the entry holds 64 bits without a sign *)
Theorem C57_large_refuted : exists s v, dec_num s v /\ 0 <= v < 2^64 /\
  last_of (snd (run_cmds toy_sha [new; CAddMeta (b "a") None (FromString s) (Some (b "integer"))] [])) = (None, Err E_FAILED).
Proof.
  exists (b "9223372036854775808"), (2^63). split; [|split; [lia|exact big_integer]].
  assert (X : forall l v0, dec_num l v0 -> forall t, forallb (fun c => (48 <=? c) && (c <=? 57)) t = true ->
     dec_num (l ++ t) (fold_left (fun a c => 10 * a + (c - 48)) t v0)).
  { intros l v0 D t. revert l v0 D. induction t as [|c t IH]; intros l v0 D Hd; cbn [fold_left]; [now rewrite app_nil_r|].
    cbn [forallb] in Hd. apply andb_prop in Hd as [Hc Hd]. replace (l ++ c :: t) with ((l ++ [c]) ++ t) by (rewrite <- app_assoc; reflexivity).
    apply IH; auto. constructor; auto. lia. }
  exact (X [] 0 dec_num_nil (b "9223372036854775808") eq_refl).
Qed.
Print Assumptions C57_large_refuted.
(* a text that is no number is stored as one *)
Theorem C57_garbage_refuted : exists v,
  last_of (snd (run_cmds toy_sha [new; CAddMeta (b "a") None (FromString (b "12monkeys")) (Some (b "integer")); CExtractMeta (b "a") None] [])) = (Some v, Ok tt).
Proof. eexists. exact not_integer. Qed.
Print Assumptions C57_garbage_refuted.
Example C57_instance : dec_num (bytes_of "42") 42 /\ fits (mkWorld 1 2 0 0 [] [] []) (CAddMeta (b "version") None (FromString (b "42")) (Some (bytes_of "integer"))) = true /\
  snd (run_cmds toy_sha [new; CAddMeta (b "version") None (FromString (b "42")) (Some (bytes_of "integer"))] []) = [(None, Ok tt); (None, Ok tt)].
Proof.
  split; [|split; vm_compute; reflexivity]. change (bytes_of "42") with (([] ++ [52]) ++ [50]). change 42 with (10 * (10 * 0 + (52 - 48)) + (50 - 48)).
  repeat constructor; lia.
Qed.

(* ---- C58: what is deleted is gone ---- *)
Theorem C58_add_then_delete sha p fs name data flags : good_hash sha -> pkg_inv sha p fs -> bytes_ok name -> bpak_id name <> 0 ->
  ~ In (bpak_id name) (map f_id fs) -> (length fs < 32)%nat -> 0 <= flags < 256 -> Z.testbit flags 1 = false ->
  zlen (pk_file p) + zlen data + 512 <= 2^63 ->
  exists p', pkg_add_file sha p data name flags = (p', Ok tt) /\ pkg_delete_part sha p' (bpak_id name) false = (p, Ok tt).
Proof. exact (add_then_delete sha p fs name data flags). Qed.
Print Assumptions C58_add_then_delete.
(* anywhere in the package: two packages that differ in one file only are
   equal once it is deleted.  [tail]: the bytes of the hash field behind the digest *)
Theorem C58_delete_forgets_partial sha p1 p2 (a : list (parth * bytes)) q1 c1 b1 q2 c2 b2 : good_hash sha ->
  holds p1 (a ++ (q1, c1) :: b1) -> holds p2 (a ++ (q2, c2) :: b2) -> p_id q1 = p_id q2 ->
  map (moved (zlen c1)) b1 = map (moved (zlen c2)) b2 ->
  hash_supported (h_hash_kind (pk_header p1)) = true ->
  same_besides_parts (pk_header p1) (pk_header p2) -> tail (pk_header p1) = tail (pk_header p2) ->
  pkg_delete_part sha p1 (p_id q1) false = pkg_delete_part sha p2 (p_id q2) false.
Proof. exact (delete_forgets sha p1 p2 a q1 c1 b1 q2 c2 b2). Qed.
Print Assumptions C58_delete_forgets_partial.
(* metadata values stay in the file when their entry is deleted, and show up
   again in the next transport entry *)
Theorem C58_metadata_refuted : exists v, last_of (snd (run_cmds toy_sha
  [ new; CAddMeta (b "a") None (FromString (b "x")) None; CAddPart (b "p") [1] false;
    CAddMeta (b "secret") (Some (b "p")) (FromString (b "the key is 1234")) None; CDelete (b "p") false;
    CTransportAdd (b "fs") (b "e") (b "d"); CExtractMeta (b "bpak-transport") (Some (b "fs")) ] [])) = (Some v, Ok tt) /\
  slice 8 7 v = b "is 1234".
Proof. exact stale_leak. Qed.
Print Assumptions C58_metadata_refuted.
Example C58_instance : exists p, pkg_inv toy_sha p [] /\ ~ In (bpak_id (b "x")) (map f_id []) /\ bpak_id (b "x") <> 0.
Proof.
  destruct (stored_now toy_sha _ _ toy_sha_good new_stored) as (p & _ & I). exists p. split; [exact I|]. split; [intros []|vm_compute; discriminate].
Qed.
