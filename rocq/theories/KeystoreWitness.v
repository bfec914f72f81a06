(* KeystoreWitness.v -- concrete keystores and packages for PropertiesUtil.v *)
From Coq Require Import Lia.
From Verif Require Import Base BaseLemmas HeaderModel HeaderSpec HeaderOps CodecProofs PartProofs MetaProofs HeaderWitness CrcModel HashModel
  VerifyModel VerifySpec PkgModel PkgSpec KeystoreModel KeystoreSpec.

(* a keystore package for provider 7 with one key part (id 5) of n bytes *)
Definition kw_part (n pad : Z) : parth := mkPart 5 n 4096 0 pad 0 0.
Definition kw_header (n pad : Z) : header :=
  with_metadata (with_meta (with_parts init_header (kw_part n pad :: repeat zero_part 31))
    (mkMeta ID_KEYSTORE_PROVIDER_ID 4 0 0 [0;0;0;0] :: repeat zero_meta 31)) (le 4 7 ++ zeros 1916).
Definition kw_key (n : Z) : bytes := repeat 48 (Z.to_nat n).
Definition kw_pkg (n pad : Z) : pkg := mkPkg (kw_header n pad) (enc_header (kw_header n pad) ++ kw_key n ++ zeros pad).
Definition kw_live : list mentry := [mkEntry ID_KEYSTORE_PROVIDER_ID 0 (le 4 7)].
Lemma kw_metas n pad : metas_are (h_meta (kw_header n pad)) (h_metadata (kw_header n pad)) kw_live.
Proof.
  apply metas_are_iff. split; [reflexivity|]. split; [reflexivity|]. split; [repeat constructor; intros []|].
  split; [repeat constructor; discriminate|]. split.
  - cbn. repeat split. repeat constructor.
  - cbn. repeat split. lia.
Qed.
Lemma kw_holds_100 : holds (kw_pkg 100 412) [(kw_part 100 412, kw_key 100 ++ zeros 412)] /\ valid_header (kw_header 100 412) = Ok tt.
Proof.
  split; [|vm_compute; reflexivity]. constructor.
  - apply wf_headerb_ok. vm_compute. reflexivity.
  - cbn [length]. lia.
  - reflexivity.
  - constructor; [cbn; discriminate|constructor].
  - cbn. constructor; [intros []|constructor].
  - constructor; [reflexivity|constructor].
  - cbn [map snd concat]. rewrite app_nil_r. reflexivity.
  - vm_compute. reflexivity.
Qed.
Lemma kw_holds_600 : holds (kw_pkg 600 424) [(kw_part 600 424, kw_key 600 ++ zeros 424)] /\ valid_header (kw_header 600 424) = Ok tt.
Proof.
  split; [|vm_compute; reflexivity]. constructor.
  - apply wf_headerb_ok. vm_compute. reflexivity.
  - cbn [length]. lia.
  - reflexivity.
  - constructor; [cbn; discriminate|constructor].
  - cbn. constructor; [intros []|constructor].
  - constructor; [reflexivity|constructor].
  - cbn [map snd concat]. rewrite app_nil_r. reflexivity.
  - vm_compute. reflexivity.
Qed.
Definition kw_ks : keystore := mkKs 7 3 true [Some (mkKey 1 5 [1]); Some (mkKey 1 9 [2]); Some (mkKey 1 9 [3])].

(* headers for C49 *)
Definition uw_header (id size : Z) (d : bytes) : header :=
  with_metadata (with_meta init_header (mkMeta id size 0 0 [0;0;0;0] :: repeat zero_meta 31)) (d ++ zeros (1920 - zlen d)).
