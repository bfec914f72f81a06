(* PropertiesImage.v -- C59: a package file is a function of its contents *)
From Coq Require Import String.
From Verif Require Import BaseLemmas HeaderModel HeaderSpec HeaderHistory CrcModel HashModel MerkleModel MerkleSpec MerkleApi
  VerifyModel VerifySpec VerifyProofs VerifySign VerifyWitness PkgModel PkgSpec PkgDelete PkgHistory PkgForget PkgCanon UtilModel UtilSpec KeystoreModel
  CliModel CliSpec CliArgs CliNumbers CliProofs CliSign CliClaims CliWitness ImageSpec ImageClaims.
Local Open Scope Z_scope.
Local Open Scope list_scope.

(* create writes the image of the empty package, whatever was in the file *)
Theorem C59_create sha hash sign hk sk f : good_hash sha -> hash_named hash = Some hk -> sign_named sign = Some sk ->
  let w := mkWorld hk sk 0 0 [] [] [] in
  run_cmd sha (CCreate hash sign) f = (image sha w, None, Ok tt) /\ stored sha (image sha w) w.
Proof. exact (create_image sha hash sign hk sk f). Qed.
Print Assumptions C59_create.
(* every command leads from image to image; up to the first one that is beyond
   the limits of the tool or removes metadata *)
Theorem C59_commands sha cs w : good_hash sha -> stored sha (image sha w) w ->
  exists done rest xs w', cs = done ++ rest /\ spec_cmds sha w done xs w' /\
    run_cmds sha done (image sha w) = (image sha w', xs) /\ stored sha (image sha w') w' /\
    match rest with [] => True | c :: _ => fits w' c = false \/ tidy w' c = false end.
Proof. exact (cmds_image sha cs w). Qed.
Print Assumptions C59_commands.
Theorem C59_sign {K} sha (sg : sigscheme K) pub_of junk w key s : good_hash sha -> correct_scheme sg pub_of -> stored sha (image sha w) w ->
  sg_sign sg (sha (w_hash w) (enc_header (unsigned (dec_header (ztake 4096 (image sha w)))))) (w_hash w) key = Ok s ->
  cli_sign sha sg junk (Ok key) (image sha w) = (image sha (set_sig w s), None, Ok tt) /\ stored sha (image sha (set_sig w s)) (set_sig w s).
Proof. exact (sign_image sha sg pub_of junk w key s). Qed.
Print Assumptions C59_sign.
(* and back: the bytes determine the contents *)
Theorem C59_one_contents sha f w1 w2 : stored sha f w1 -> stored sha f w2 -> w1 = w2.
Proof. exact (stored_unique sha f w1 w2). Qed.
Print Assumptions C59_one_contents.
(* the library: any two histories of calls that keep metadata and end with the
   same files leave identical packages: nothing of a deleted file remains *)
Theorem C58_histories_forget sha p fs os1 os2 : good_hash sha -> pkg_inv sha p fs -> clean (pk_header p) ->
  Forall pkg_op_ok os1 -> Forall pkg_op_ok os2 -> forallb keeps_meta os1 = true -> forallb keeps_meta os2 = true ->
  zlen (pk_file p) + pkg_ops_cost os1 <= 2^63 -> zlen (pk_file p) + pkg_ops_cost os2 <= 2^63 ->
  fst (spec_pkg_ops bpak_id fs os1) = fst (spec_pkg_ops bpak_id fs os2) ->
  pk_file (fst (run_pkg_ops sha p os1)) = pk_file (fst (run_pkg_ops sha p os2)).
Proof. exact (history_independent sha p fs os1 os2). Qed.
Print Assumptions C58_histories_forget.
Example C58_histories_instance : exists p, pkg_inv toy_sha p [] /\ clean (pk_header p) /\
  Forall pkg_op_ok [OAdd (b "a") (b "secret") 0; OAdd (b "b") [1;2;3] 0; ODel (bpak_id (b "a")) false] /\
  fst (spec_pkg_ops bpak_id [] [OAdd (b "a") (b "secret") 0; OAdd (b "b") [1;2;3] 0; ODel (bpak_id (b "a")) false]) =
  fst (spec_pkg_ops bpak_id [] [OAdd (b "b") [1;2;3] 0]).
Proof.
  destruct (create_image toy_sha None None 1 2 [] toy_sha_good eq_refl eq_refl) as [_ S]. apply stored_st in S as (p & E & S).
  exists p. split; [exact (st_inv _ _ _ S)|]. split; [exact (ImageSteps.pr_parts _ (image_pristine _ _ _ toy_sha_good S E))|].
  split; [|vm_compute; reflexivity].
  repeat constructor; cbn [pkg_op_ok]; repeat split; try (vm_compute; discriminate); try lia; try (vm_compute; reflexivity);
    repeat constructor; unfold byte_ok; cbn; lia.
Qed.
(* commands that remove metadata leave its values in the file: the bytes are no
   function of the contents *)
Definition rm_session : list cmd :=
  [ new; CAddPart (b "p") [1] false; CAddMeta (b "secret") (Some (b "p")) (FromString (b "the key is 1234")) None; CDelete (b "p") false ].
Lemma rm_stored : stored toy_sha (fst (run_cmds toy_sha rm_session [])) (mkWorld 1 2 0 0 [] [] []).
Proof.
  pose proof toy_sha_good as G. unfold rm_session. cbn [run_cmds].
  destruct (create_image toy_sha None None 1 2 [] G eq_refl eq_refl) as [E S]. cbn zeta in *. unfold new at 1. rewrite E. clear E.
  generalize dependent (image toy_sha (mkWorld 1 2 0 0 [] [] [])). intros f0 S.
  set (c1 := CAddPart _ _ _). pose proof (next toy_sha f0 _ c1 G S ltac:(vm_compute; reflexivity)) as N1. destruct (run_cmd toy_sha c1 f0) as [[f1 o1] r1].
  destruct N1 as (w1 & S1 & C1). unfold c1 in C1. cbn [spec_cmd w_files] in C1. 
  assert (E1 : spec_pkg_op bpak_id [] (OAdd (b "p") [1] (flags_of false)) = ([mkFile (bpak_id (b "p")) 0 [1]], None, Ok tt)) by (vm_compute; reflexivity).
  rewrite E1 in C1. destruct C1 as (-> & _ & _). clear E1.
  set (c2 := CAddMeta _ _ _ _). pose proof (next toy_sha f1 _ c2 G S1 ltac:(vm_compute; reflexivity)) as N2. destruct (run_cmd toy_sha c2 f1) as [[f2 o2] r2].
  destruct N2 as (w2 & S2 & C2). unfold c2 in C2.
  assert (W2 : w2 = mkWorld 1 2 0 0 [] [mkFile (bpak_id (b "p")) 0 [1]] [mkEntry (bpak_id (b "secret")) (bpak_id (b "p")) (b "the key is 1234" ++ [0])]).
  { revert C2. cbn [spec_cmd]. vm_compute. intuition congruence. }
  subst w2. set (c3 := CDelete _ _). pose proof (next toy_sha f2 _ c3 G S2 ltac:(vm_compute; reflexivity)) as N3. destruct (run_cmd toy_sha c3 f2) as [[f3 o3] r3].
  destruct N3 as (w3 & S3 & C3). unfold c3 in C3.
  assert (W3 : w3 = mkWorld 1 2 0 0 [] [] []).
  { revert C3. cbn [spec_cmd]. vm_compute. intuition congruence. }
  subst w3. exact S3.
Qed.
Theorem C59_removed_metadata_refuted : exists cs f w, fst (run_cmds toy_sha cs []) = f /\ stored toy_sha f w /\ f <> image toy_sha w.
Proof.
  exists rm_session. eexists. exists (mkWorld 1 2 0 0 [] [] []). split; [reflexivity|]. split; [exact rm_stored|].
  intros E. apply (f_equal (fun l => slice 1544 15 l)) in E. vm_compute in E. discriminate E.
Qed.
Print Assumptions C59_removed_metadata_refuted.
(* a session that adds, replaces and deletes ends with the image *)
Definition tidy_session : list cmd :=
  [ CAddMeta (b "version") None (FromString (b "42")) (Some (b "integer"));
    CAddPart (b "secret") (b "forget me") false;
    CAddMerkle (b "fs") cw_block cw_salt false;
    CTransportAdd (b "fs") (b "bsdiff") (b "bspatch");
    CDelete (b "secret") false;
    CSetMeta (b "version") (b "-0x10") (Some (b "integer"));
    CSetIds (Some (b "0x1234")) (Some (b "my-keystore"));
    CSignRaw (Some (b "signature")) ].
Example C59_instance : stored toy_sha (image toy_sha (mkWorld 1 2 0 0 [] [] [])) (mkWorld 1 2 0 0 [] [] []) /\
  snd (run_cmds toy_sha (new :: tidy_session) []) = repeat (None, Ok tt) 9 /\
  let ls := [level_above toy_sha cw_salt cw_block] in
  fst (run_cmds toy_sha (new :: tidy_session) []) =
    image toy_sha (mkWorld 1 2 4660 (bpak_id (b "my-keystore")) (b "signature")
      [mkFile (bpak_id (b "fs")) 0 cw_block; mkFile (bpak_id (b "fs-hash-tree")) 0 (hash_tree ls)]
      [mkEntry (bpak_id (b "version")) 0 (le 8 (2^64 - 16)); mkEntry ID_MERKLE_SALT (bpak_id (b "fs")) cw_salt;
       mkEntry ID_MERKLE_ROOT_HASH (bpak_id (b "fs")) (root_hash toy_sha cw_salt cw_block ls);
       mkEntry ID_BPAK_TRANSPORT (bpak_id (b "fs")) (le 4 (bpak_id (b "bsdiff")) ++ le 4 (bpak_id (b "bspatch")) ++ zeros 24)]).
Proof.
  split; [exact (proj2 (create_image toy_sha None None 1 2 [] toy_sha_good eq_refl eq_refl))|]. split; [vm_compute; reflexivity|]. vm_compute. reflexivity.
Qed.
