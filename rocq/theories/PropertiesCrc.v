(* PropertiesCrc.v -- C11, C12, C13 (ids). *)
From Coq Require Import String.
From Verif Require Import BaseLemmas HeaderModel HeaderSpec CrcModel CrcSpec CrcProofs HeaderWitness.

(* ---- C11 ---- *)
Theorem C11_id_is_crc32 : forall name, bytes_ok name ->
  bpak_id name = crc_spec 0 name /\ 0 <= bpak_id name < 2^32.
Proof.
  exact (fun name H => conj (crc32_spec name 0 (conj (Z.le_refl 0) eq_refl) H)
                            (crc32_w32 0 name (conj (Z.le_refl 0) eq_refl) H)).
Qed.
Print Assumptions C11_id_is_crc32.
Theorem C11_crc32_any_initial_value : forall crc buf, 0 <= crc < 2^32 -> bytes_ok buf ->
  crc32 crc buf = crc_spec crc buf /\ 0 <= crc32 crc buf < 2^32.
Proof. exact (fun crc buf H1 H2 => conj (crc32_spec buf crc H1 H2) (crc32_w32 crc buf H1 H2)). Qed.
Print Assumptions C11_crc32_any_initial_value.
(* the constants of include/bpak/id.h are the ids of their names, and
   bpak_id_to_string is a partial inverse of bpak_id *)
Theorem C11_well_known_ids :
  id_of "bpak-transport" = ID_BPAK_TRANSPORT /\ id_of "merkle-salt" = ID_MERKLE_SALT /\
  id_of "merkle-root-hash" = ID_MERKLE_ROOT_HASH /\ id_of "keystore-provider-id" = ID_KEYSTORE_PROVIDER_ID /\
  id_of "bpak-version" = ID_BPAK_VERSION /\ id_of "pb-load-addr" = ID_PB_LOAD_ADDR /\
  id_of "bpak-package" = ID_BPAK_PACKAGE /\ id_of "bpak-key-id" = ID_BPAK_KEY_ID /\
  id_of "bpak-key-store" = ID_BPAK_KEY_STORE /\ id_of "bsdiff" = ID_BSDIFF /\
  id_of "bsdiff-lzma" = ID_BSDIFF_LZMA /\ id_of "bsdiff-no-comp" = ID_BSDIFF_NO_COMP /\
  id_of "bspatch" = ID_BSPATCH /\ id_of "bspatch-lzma" = ID_BSPATCH_LZMA /\
  id_of "bspatch-no-comp" = ID_BSPATCH_NO_COMP /\ id_of "merkle-generate" = ID_MERKLE_GENERATE /\
  id_of "remove-data" = ID_REMOVE_DATA /\
  (forall id, id_to_string id <> ""%string -> id_of (id_to_string id) = id).
Proof. exact well_known_ids. Qed.
Print Assumptions C11_well_known_ids.
(* the CRC-32 check string *)
Example C11_instance : bytes_ok (bytes_of "123456789") /\ id_of "123456789" = 771566984.
Proof. split; [apply bytes_of_ok|vm_compute; reflexivity]. Qed.

(* ---- C12 ---- *)
Theorem C12_hash_tree_id_of_name : forall name,
  part_name_to_hash_tree_id name = bpak_id (name ++ bytes_of "-hash-tree") /\
  part_id_to_hash_tree_id (bpak_id name) = bpak_id (name ++ bytes_of "-hash-tree") /\
  (forall suffix, bpak_id (name ++ suffix) = crc32 (bpak_id name) suffix).
Proof. exact hash_tree_ids. Qed.
Print Assumptions C12_hash_tree_id_of_name.
Theorem C12_hash_tree_id_inverse : forall h,
  Forall wf_part (h_parts h) ->
  (forall p, In p (h_parts h) ->
     hash_tree_id_to_part_id h (part_id_to_hash_tree_id (p_id p)) = p_id p) /\
  (forall id, (forall p, In p (h_parts h) -> part_id_to_hash_tree_id (p_id p) <> id) ->
     hash_tree_id_to_part_id h id = 0).
Proof. exact (fun h W => conj (fun p => hash_tree_inverse h p W) (hash_tree_none h)). Qed.
Print Assumptions C12_hash_tree_id_inverse.
Example C12_instance : Forall wf_part (h_parts example_header) /\
  id_of "fs-hash-tree" = part_id_to_hash_tree_id (id_of "fs").
Proof.
  split; [|vm_compute; reflexivity]. exact (proj2 (wf_parts _ example_header_wf)).
Qed.

(* ---- C13 ---- *)
Theorem C13_near_names_have_distinct_ids : forall pre w1 w2 post,
  bytes_ok pre -> bytes_ok w1 -> bytes_ok w2 -> bytes_ok post ->
  length w1 = length w2 -> (length w1 <= 4)%nat -> w1 <> w2 ->
  bpak_id (pre ++ w1 ++ post) <> bpak_id (pre ++ w2 ++ post).
Proof. exact (fun pre w1 w2 post A B C D L M N E => N (id_window pre w1 w2 post A B C D L M E)). Qed.
Print Assumptions C13_near_names_have_distinct_ids.
Theorem C13_hash_tree_ids_distinct : forall a b,
  0 <= a < 2^32 -> 0 <= b < 2^32 -> a <> b ->
  part_id_to_hash_tree_id a <> part_id_to_hash_tree_id b.
Proof. exact (fun a b A B N E => N (hash_tree_id_inj a b A B E)). Qed.
Print Assumptions C13_hash_tree_ids_distinct.
Example C13_instance : bytes_of "fs-a" <> bytes_of "fs-b" /\ id_of "fs-a" <> id_of "fs-b".
Proof. split; intros E; vm_compute in E; discriminate. Qed.
