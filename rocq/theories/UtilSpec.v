(* UtilSpec.v -- what a hex dump, a UUID text and the order of UUIDs are.
   Independent of UtilModel.v. *)
From Coq Require Import String.
From Verif Require Import Base HeaderModel CrcModel.
Local Open Scope Z_scope.
Local Open Scope list_scope.

(* character [c] is a hex digit of value [v] *)
Definition hex_digit (c v : Z) : Prop :=
  (48 <= c <= 57 /\ v = c - 48) \/     (* '0'..'9' *)
  (65 <= c <= 70 /\ v = c - 65 + 10) \/    (* 'A'..'F' *)
  (97 <= c <= 102 /\ v = c - 97 + 10).   (* 'a'..'f' *)
(* [s] is the hex form of [d]: two digits per byte, high digit first *)
Inductive hex_text : bytes -> bytes -> Prop :=
| hex_nil : hex_text [] []
| hex_cons c1 v1 c2 v2 s d :
    hex_digit c1 v1 -> hex_digit c2 v2 -> hex_text s d -> hex_text (c1 :: c2 :: s) (16 * v1 + v2 :: d).
(* xxxxxxxx-xxxx-xxxx-xxxx-xxxxxxxxxxxx *)
Definition uuid_text (s u : bytes) : Prop :=
  exists s1 s2 s3 s4 s5 u1 u2 u3 u4 u5,
    s = s1 ++ [45] ++ s2 ++ [45] ++ s3 ++ [45] ++ s4 ++ [45] ++ s5 /\
    u = u1 ++ u2 ++ u3 ++ u4 ++ u5 /\
    hex_text s1 u1 /\ hex_text s2 u2 /\ hex_text s3 u3 /\ hex_text s4 u4 /\ hex_text s5 u5 /\
    length u1 = 4%nat /\ length u2 = 2%nat /\ length u3 = 2%nat /\ length u4 = 2%nat /\ length u5 = 6%nat.
Definition lower_case (s : bytes) : Prop := forall c, In c s -> ~ (65 <= c <= 90).
Definition upper_case (s : bytes) : Prop := forall c, In c s -> ~ (97 <= c <= 122).
Definition to_lower (c : Z) : Z := if (65 <=? c) && (c <=? 90) then c + 32 else c.
(* dictionary order of byte strings of one length *)
Definition lex_lt (a b : bytes) : Prop :=
  exists p x y r s, a = p ++ x :: r /\ b = p ++ y :: s /\ x < y.
(* a C string of text [s] stored in [buf] *)
Definition holds_string (buf s : bytes) : Prop :=
  ~ In 0 s /\ exists rest, buf = s ++ [0] ++ rest.

(* ---- numbers and texts of bpak_meta_to_string ---- *)
(* [s] is a hexadecimal numeral of value [v] *)
Inductive hex_num : bytes -> Z -> Prop :=
| hex_num_nil : hex_num [] 0
| hex_num_snoc s v c d : hex_num s v -> hex_digit c d -> hex_num (s ++ [c]) (16 * v + d).
(* [v] in hex, one case, at least [w] digits, leading zeros only up to [w] digits *)
Definition printed (upper : bool) (w v : Z) (s : bytes) : Prop :=
  hex_num s v /\ (if upper then upper_case s else lower_case s) /\ w <= zlen s /\ (w < zlen s -> hd 0 s <> 48).
(* what bpak_meta_to_string prints for an entry with id [id] whose data starts
   the byte string [d]; nothing for an unknown id.  BPAK_VERSION: see C49 *)
Inductive entry_text : Z -> bytes -> bytes -> Prop :=
| text_key_id d s : printed false 1 (unle (slice 0 4 d)) s -> entry_text ID_BPAK_KEY_ID d s
| text_key_store d s : printed false 1 (unle (slice 0 4 d)) s -> entry_text ID_BPAK_KEY_STORE d s
| text_package d s : uuid_text s (slice 0 16 d) -> lower_case s -> entry_text ID_BPAK_PACKAGE d s
| text_transport d a b : printed false 8 (unle (slice 0 4 d)) a -> printed false 8 (unle (slice 4 4 d)) b ->
    entry_text ID_BPAK_TRANSPORT d (bytes_of "Encode: " ++ a ++ bytes_of ", Decode: " ++ b)
| text_salt d s : hex_text s (slice 0 32 d) -> lower_case s -> entry_text ID_MERKLE_SALT d s
| text_root d s : hex_text s (slice 0 32 d) -> lower_case s -> entry_text ID_MERKLE_ROOT_HASH d s
| text_load_addr d a : printed true 8 (unle (slice 0 8 d)) a ->
    entry_text ID_PB_LOAD_ADDR d (bytes_of "Entry: 0x" ++ a)
| text_provider d a : printed false 1 (unle (slice 0 4 d)) a ->
    entry_text ID_KEYSTORE_PROVIDER_ID d (bytes_of "0x" ++ a)
| text_other id d :
    id <> ID_BPAK_KEY_ID -> id <> ID_BPAK_KEY_STORE -> id <> ID_BPAK_PACKAGE -> id <> ID_BPAK_TRANSPORT ->
    id <> ID_MERKLE_SALT -> id <> ID_MERKLE_ROOT_HASH -> id <> ID_PB_LOAD_ADDR -> id <> ID_BPAK_VERSION ->
    id <> ID_KEYSTORE_PROVIDER_ID -> entry_text id d [].
(* bytes of a value of the type stored under the id *)
Definition expected_size (id : Z) : Z :=
  if (id =? ID_BPAK_KEY_ID) || (id =? ID_BPAK_KEY_STORE) || (id =? ID_KEYSTORE_PROVIDER_ID) then 4
  else if id =? ID_BPAK_PACKAGE then 16
  else if (id =? ID_BPAK_TRANSPORT) || (id =? ID_PB_LOAD_ADDR) then 8
  else if (id =? ID_MERKLE_SALT) || (id =? ID_MERKLE_ROOT_HASH) then 32
  else 0.
