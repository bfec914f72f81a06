(* KeystoreSpec.v *)
From Verif Require Import Base HeaderModel CrcModel HashModel VerifyModel PkgModel KeystoreModel.

(* [x] is the first element of [l] with property [P] *)
Definition first_such {A} (P : A -> Prop) (l : list A) (x : A) : Prop :=
  exists a b, l = a ++ x :: b /\ P x /\ Forall (fun y => ~ P y) a.
(* keys[] holds at least [ks_count] keys, none of them NULL *)
Definition wf_keystore (ks : keystore) (keys : list key) : Prop :=
  ks_count ks = zlen keys /\ exists rest, ks_keys ks = map Some keys ++ rest.
(* the file starts with a valid header [h] *)
Definition has_header (f : bytes) (h : header) : Prop :=
  4096 <= zlen f /\ h = dec_header (ztake 4096 f) /\ valid_header h = Ok tt.
(* the keystore-provider-id (part reference 0) stored in the metadata *)
Definition provider_id (h : header) (id : Z) : Prop :=
  exists m, first_such (fun m => m_id m = ID_KEYSTORE_PROVIDER_ID /\ m_ref m = 0) (h_meta h) m /\
    m_offset m + 4 <= METADATA_BYTES /\ unle (slice (m_offset m) 4 (h_metadata h)) = id.
