(* PropertiesGen.v -- C62: bpak generate keystore *)
From Coq Require Import Lia String.
From Verif Require Import Base BaseLemmas HeaderModel HeaderSpec CrcModel HashModel VerifyModel VerifySpec PkgModel PkgSpec UtilSpec KeystoreModel CliModel CliSpec
  MerkleApi ViewModel ViewSpec ViewProofs ViewWitness ViewGen.
Local Open Scope Z_scope.
Local Open Scope list_scope.

(* missing: transport encoded packages and packages whose offset fields are not
   the positions of the parts *)
Theorem C62_generate_partial : forall parse p ms (es : list (parth * bytes)) v,
  package p ms es -> plain es -> offsets_from 4096 es -> Forall (key_part parse) es ->
  find (selects id_package (Some 0)) ms <> None -> find (selects id_provider (Some 0)) ms = Some v -> 4 <= zlen (e_val v) ->
  exists gs, cli_generate parse (pk_file p) = (gs, Ok (unle (ztake 4 (e_val v)))) /\ Forall2 (key_of parse) es gs.
Proof. exact generate_ok. Qed.
Print Assumptions C62_generate_partial.
Theorem C62_generate_fails_partial : forall parse p ms (es : list (parth * bytes)),
  package p ms es -> plain es -> offsets_from 4096 es -> (forall d, parse d <> UB /\ parse d <> Stuck) ->
  find (selects id_package (Some 0)) ms = None \/ find (selects id_provider (Some 0)) ms = None \/ ~ Forall (key_part parse) es ->
  exists gs x, cli_generate parse (pk_file p) = (gs, Err x).
Proof. exact generate_bad. Qed.
Print Assumptions C62_generate_fails_partial.

Definition vg_parse (d : bytes) : res key := if zlen d =? 0 then Err E_FAILED else Ok (mkKey 2 0 (ztake 3 d)).
Definition vg_provider : mentry := mkEntry id_provider 0 (le 4 4660).
Definition vg_ms : list mentry := [vw_uuid; vg_provider].
Definition vg_es : list (parth * bytes) := [vw_part 5 4096 600 1; vw_part 6 5120 91 2].
(* the second part behind a transport encoded one *)
Definition vg_moved : list (parth * bytes) := [(mkPart 5 1024 4096 512 0 3 0, repeat 1 512); vw_part 6 5120 91 2].
(* the full claim: the source declares the keys of the package and says they are
   verified only if they are.  False three ways: .size is the size of the part
   and not of .data; .verified = true without any check of hash or signature;
   behind a transport encoded part the key is looked for at the wrong place *)
Theorem C62_generate_refuted :
  (exists parse p ms es g gs, package p ms es /\ plain es /\ offsets_from 4096 es /\
     cli_generate parse (pk_file p) = (g :: gs, Ok 4660) /\ gk_size g <> zlen (gk_data g)) /\
  (exists parse p ms es gs, package p ms es /\ ztake 32 (h_payload_hash (pk_header p)) <> toy_sha HASH_SHA256 (covered es) /\ h_signature_sz (pk_header p) = 0 /\
     gs <> [] /\ cli_generate parse (pk_file p) = (gs, Ok 4660)) /\
  (exists parse p ms es, package p ms es /\ Forall (key_part parse) es /\ snd (cli_generate parse (pk_file p)) = Err E_READ_ERROR).
Proof.
  split; [|split].
  - exists vg_parse, (vw_pkg vg_ms vg_es), vg_ms, vg_es, (mkGkey 5 600 2 [1;1;1]), [mkGkey 6 91 2 [2;2;2]].
    split; [vw|]. split; [repeat constructor|]. split; [vm_compute; auto|]. split; [vm_compute; reflexivity|]. vm_compute. discriminate.
  - exists vg_parse, (vw_pkg vg_ms vg_es), vg_ms, vg_es, [mkGkey 5 600 2 [1;1;1]; mkGkey 6 91 2 [2;2;2]].
    split; [vw|]. split; [vm_compute; discriminate|]. split; [reflexivity|]. split; [discriminate|]. vm_compute. reflexivity.
  - exists vg_parse, (vw_pkg vg_ms vg_moved), vg_ms, vg_moved. split; [vw|]. split.
    + repeat (apply Forall_cons; [eexists; split; [vm_compute; reflexivity|split; vm_compute; [split|]; discriminate]|]). constructor.
    + vm_compute. reflexivity.
Qed.
Print Assumptions C62_generate_refuted.
Example C62_instance : package (vw_pkg vg_ms vg_es) vg_ms vg_es /\ plain vg_es /\ offsets_from 4096 vg_es /\ Forall (key_part vg_parse) vg_es /\
  find (selects id_package (Some 0)) vg_ms <> None /\ find (selects id_provider (Some 0)) vg_ms = Some vg_provider /\ 4 <= zlen (e_val vg_provider) /\
  ~ Forall (key_part vg_parse) [vw_part 5 4096 4097 1].
Proof.
  split; [vw|]. split; [repeat constructor|]. split; [vm_compute; auto|]. split.
  { repeat (apply Forall_cons; [eexists; split; [vm_compute; reflexivity|split; vm_compute; [split|]; discriminate]|]). constructor. }
  split; [vm_compute; discriminate|]. split; [vm_compute; reflexivity|]. split; [vm_compute; discriminate|].
  intros C. inversion C as [|? ? (k & _ & _ & X) _]; subst. vm_compute in X. apply X. reflexivity.
Qed.
