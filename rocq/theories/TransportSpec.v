(* TransportSpec.v -- transport settings and encoded packages, independently of
   lib/transport_encode.c and lib/transport_decode.c *)
From Verif Require Import Base HeaderModel HeaderSpec CrcModel HashModel MerkleSpec VerifyModel PkgSpec.

(* the first metadata entry of [h] with this id and part reference starts with
   the bytes [v] *)
Definition meta_starts (h : header) (id ref : Z) (v : bytes) : Prop :=
  exists pre m post, h_meta h = pre ++ m :: post /\ m_id m = id /\ m_ref m = ref /\
    Forall (fun x => ~ (m_id x = id /\ m_ref x = ref)) pre /\
    m_offset m + zlen v <= 1920 /\ slice (m_offset m) (zlen v) (h_metadata h) = v.
Definition no_meta (h : header) (id ref : Z) : Prop :=
  Forall (fun x => ~ (m_id x = id /\ m_ref x = ref)) (h_meta h).

(* how a part travels *)
Inductive setting :=
| AsIs      (* no transport metadata: copied *)
| Patch     (* bsdiff-no-comp / bspatch-no-comp *)
| PatchHs   (* bsdiff / bspatch: patch compressed with heatshrink *)
| PatchLz   (* bsdiff-lzma / bspatch-lzma: patch compressed with LZMA *)
| Tree.     (* remove-data / merkle-generate *)
(* include/bpak/id.h: bpak-transport, and the algorithm ids *)
Definition bpak_transport : Z := 0x2d44bbfb.
Definition has_setting (h : header) (id : Z) (s : setting) : Prop :=
  match s with
  | AsIs => no_meta h bpak_transport id
  | Patch => meta_starts h bpak_transport id (le 4 0x0a878e3e ++ le 4 0x75622592)
  | PatchHs => meta_starts h bpak_transport id (le 4 0x9f7aacf9 ++ le 4 0xb5964388)
  | PatchLz => meta_starts h bpak_transport id (le 4 0x1607e56e ++ le 4 0x933a9893)
  | Tree => meta_starts h bpak_transport id (le 4 0x57004cd0 ++ le 4 0xb5bcc58f)
  end.
Definition patched (s : setting) : Prop := s = Patch \/ s = PatchHs \/ s = PatchLz.

(* the part [t] with contents [tree] is the hash tree of an earlier part *)
Definition tree_of_earlier (sha : hashfn) (h : header) (es : list (parth * bytes)) (t : parth) (tree : bytes) : Prop :=
  exists a fs data b c salt ls,
    es = a ++ (fs, data) :: b ++ (t, tree) :: c /\
    p_id t = part_id_to_hash_tree_id (p_id fs) /\
    meta_starts h 0x7c9b2f93 (p_id fs) salt /\ zlen salt = 32 /\     (* merkle-salt *)
    0 < zlen data <= 2^33 /\ zlen data mod 4096 = 0 /\
    hash_levels sha salt data ls /\ tree = hash_tree ls.

(* a part as it is stored in the encoded package: nothing but the transport
   flag (bit 1) and the transport size differ *)
Definition travels (p c : parth) (size : Z) : Prop :=
  c = mkPart (p_id p) (p_size p) (p_offset p) size (p_pad_bytes p) (Z.setbit (p_flags p) 1) (p_pad p).
(* [h'] differs from [h] in the part table only *)
Definition same_besides_table (h h' : header) : Prop := h' = with_parts h (h_parts h').

(* the package uuid of [h] is [u], stored at offset [o] of the metadata block *)
Definition uuid_at (h : header) (o : Z) (u : bytes) : Prop :=
  exists pre m post, h_meta h = pre ++ m :: post /\ m_id m = 0xfb2f1f3f /\ m_ref m = 0 /\
    Forall (fun x => ~ (m_id x = 0xfb2f1f3f /\ m_ref x = 0)) pre /\
    m_offset m = o /\ o + 16 <= 1920 /\ slice o 16 (h_metadata h) = u.
(* both packages record the same package uuid, at the same place *)
Definition same_uuid_same_place (q p : header) : Prop := exists o u, uuid_at q o u /\ uuid_at p o u.

(* a package [p] with parts [es] whose parts travel as [st] says (indexed by
   part id) *)
Record transportable (sha : hashfn) (p : pkg) (es : list (parth * bytes)) (st : Z -> setting) : Prop := {
  tp_holds : holds p es;
  tp_some : es <> [];
  tp_plain : plain es;
  tp_fresh : Forall (fun e => p_transport_size (fst e) = 0) es;
  tp_size : zlen (pk_file p) < 2^62;
  tp_bytes : Forall (fun e => bytes_ok (snd e)) es;
  tp_settings : Forall (fun e => has_setting (pk_header p) (p_id (fst e)) (st (p_id (fst e)))) es;
  tp_trees : Forall (fun e => st (p_id (fst e)) = Tree -> tree_of_earlier sha (pk_header p) es (fst e) (snd e)) es }.
(* [q] with parts [eo] can be the origin of [p]: the same product, at least the
   same parts *)
Record origin_for (q : pkg) (eo : list (parth * bytes)) (p : pkg) (es : list (parth * bytes)) : Prop := {
  og_holds : holds q eo;
  og_size : zlen (pk_file q) < 2^62;
  og_uuid : same_uuid_same_place (pk_header q) (pk_header p);
  og_parts : forall e, In e es -> exists o, In o eo /\ p_id (fst o) = p_id (fst e) }.
(* how a part is stored in the encoded package *)
Definition stored_as (s : setting) (e c : parth * bytes) : Prop :=
  match s with
  | AsIs => c = e
  | Patch | PatchHs | PatchLz => travels (fst e) (fst c) (zlen (snd c))
  | Tree => travels (fst e) (fst c) 0 /\ snd c = []
  end.

(* a part after decoding: the transport flag (bit 1) and the transport size are
   cleared, nothing else changes *)
Definition decoded_part (p : parth) : parth :=
  mkPart (p_id p) (p_size p) (p_offset p) 0 (p_pad_bytes p) (Z.clearbit (p_flags p) 1) (p_pad p).
(* the table after decoding: the parts in front of the first unused slot *)
Fixpoint decoded_table (l : list parth) : list parth :=
  match l with
  | [] => []
  | p :: r => if p_id p =? 0 then l else decoded_part p :: decoded_table r
  end.

(* the decoded part [d] of the stored part [e]: transport state cleared, exactly
   the announced number of bytes, and the same bytes if it was not encoded *)
Definition decoded_as (e d : parth * bytes) : Prop :=
  fst d = decoded_part (fst e) /\ zlen (snd d) = p_size (fst e) + p_pad_bytes (fst e) /\ (Z.testbit (p_flags (fst e)) 1 = false -> snd d = snd e).
(* the bytes all parts will have after decoding, according to the header *)
Definition announced (es : list (parth * bytes)) : Z := zsum (map (fun e => p_size (fst e) + p_pad_bytes (fst e)) es).
