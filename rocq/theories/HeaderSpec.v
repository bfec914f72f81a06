(* HeaderSpec.v -- small independent specifications used in the statements of
   the header properties.  Nothing here refers to the model's loops. *)
From Verif Require Import Base HeaderModel.

(* ---- field ranges of the C structs ----------------------------------- *)
Definition wf_meta (m : metah) : Prop :=
  0 <= m_id m < 2^32 /\ 0 <= m_size m < 2^16 /\ 0 <= m_offset m < 2^16 /\
  0 <= m_ref m < 2^32 /\ zlen (m_pad m) = 4 /\ bytes_ok (m_pad m).
Definition wf_part (p : parth) : Prop :=
  0 <= p_id p < 2^32 /\ 0 <= p_size p < 2^64 /\ 0 <= p_offset p < 2^64 /\
  0 <= p_transport_size p < 2^64 /\ 0 <= p_pad_bytes p < 2^16 /\
  0 <= p_flags p < 2^8 /\ 0 <= p_pad p < 2^8.
(* a value of C type struct bpak_header *)
Record wf_header (h : header) : Prop := {
  wf_magic : 0 <= h_magic h < 2^32;
  wf_pad0 : zlen (h_pad0 h) = 4 /\ bytes_ok (h_pad0 h);
  wf_metas : length (h_meta h) = 32%nat /\ Forall wf_meta (h_meta h);
  wf_parts : length (h_parts h) = 32%nat /\ Forall wf_part (h_parts h);
  wf_metadata : zlen (h_metadata h) = 1920 /\ bytes_ok (h_metadata h);
  wf_hash_kind : 0 <= h_hash_kind h < 2^8;
  wf_signature_kind : 0 <= h_signature_kind h < 2^8;
  wf_alignment : 0 <= h_alignment h < 2^16;
  wf_payload_hash : zlen (h_payload_hash h) = 64 /\ bytes_ok (h_payload_hash h);
  wf_key_id : 0 <= h_key_id h < 2^32;
  wf_keystore_id : 0 <= h_keystore_id h < 2^32;
  wf_pad1 : zlen (h_pad1 h) = 42 /\ bytes_ok (h_pad1 h);
  wf_signature : zlen (h_signature h) = 512 /\ bytes_ok (h_signature h);
  wf_signature_sz : 0 <= h_signature_sz h < 2^16 }.

(* ---- the part table as an ordered list ------------------------------- *)
(* [live] is the list of parts of a table without holes: distinct non-zero
   ids, followed by empty (id 0) slots only. *)
Definition parts_are (slots live : list parth) : Prop :=
  exists empty, slots = live ++ empty /\ length slots = 32%nat /\
    Forall (fun p => p_id p <> 0) live /\ NoDup (map p_id live) /\
    Forall (fun p => p_id p = 0) empty.

(* operations on the part table through the API *)
Inductive part_op :=
| PAdd (id : Z)              (* bpak_add_part *)
| PSet (id : Z) (p : parth)  (* bpak_get_part, then assign all fields but id *)
| PDel (id : Z).             (* bpak_get_part, then bpak_del_part *)
Definition part_op_id (o : part_op) : Z :=
  match o with PAdd i => i | PSet i _ => i | PDel i => i end.

(* reference semantics: an ordered list of at most 32 parts *)
Definition spec_part (live : list parth) (o : part_op) : list parth * res unit :=
  match o with
  | PAdd id =>
      if existsb (fun p => p_id p =? id) live then (live, Err E_EXISTS)
      else if (32 <=? length live)%nat then (live, Err E_NO_SPACE_LEFT)
      else (live ++ [set_p_id zero_part id], Ok tt)
  | PSet id p =>
      if existsb (fun q => p_id q =? id) live
      then (map (fun q => if p_id q =? id then set_p_id p id else q) live, Ok tt)
      else (live, Err E_NOT_FOUND)
  | PDel id =>
      if existsb (fun q => p_id q =? id) live
      then (filter (fun q => negb (p_id q =? id)) live, Ok tt)
      else (live, Err E_NOT_FOUND)
  end.
Fixpoint spec_parts (live : list parth) (os : list part_op) : list parth * list (res unit) :=
  match os with
  | [] => (live, [])
  | o :: r => let (l1, x) := spec_part live o in
              let (l2, xs) := spec_parts l1 r in (l2, x :: xs)
  end.

(* ---- metadata as an ordered list of (id, part ref, value) ------------- *)
Record mentry := mkEntry { e_id : Z; e_ref : Z; e_val : bytes }.
Definition align8 (n : Z) : Z := (n + 7) / 8 * 8.
(* offset of the i-th value: every value starts on the next multiple of 8 *)
Fixpoint meta_end (l : list mentry) : Z :=
  match l with [] => 0 | e :: r => align8 (zlen (e_val e)) + meta_end r end.

(* the metadata table [slots] and block [md] hold exactly the entries [live] *)
Definition metas_are (slots : list metah) (md : bytes) (live : list mentry) : Prop :=
  length slots = 32%nat /\ zlen md = 1920 /\ (length live <= 32)%nat /\
  NoDup (map (fun e => (e_id e, e_ref e)) live) /\
  Forall (fun e => e_id e <> 0) live /\
  (forall i e, nth_error live i = Some e ->
     let off := meta_end (firstn i live) in
     off + zlen (e_val e) <= 1920 /\ slice off (zlen (e_val e)) md = e_val e /\
     exists m, nth_error slots i = Some m /\ m_id m = e_id e /\ m_ref m = e_ref e /\
               m_size m = zlen (e_val e) /\ m_offset m = off) /\
  (forall i, (length live <= i < 32)%nat -> exists m, nth_error slots i = Some m /\ m_id m = 0).

Inductive meta_op :=
| MAdd (id ref size : Z)               (* bpak_add_meta *)
| MWrite (id ref k : Z) (d : bytes)    (* bpak_get_meta, memcpy(ptr + k, d) *)
| MDel (id ref : Z).                   (* bpak_get_meta, bpak_del_meta *)

(* [del_value adj v]: what bpak_del_meta leaves of a value moved down by [adj]
   bytes: the bytes beyond the first [adj] are overwritten with zeros. *)
Definition del_value (adj : Z) (v : bytes) : bytes :=
  ztake adj v ++ zeros (zlen v - adj).

Definition e_key (e : mentry) : Z * Z := (e_id e, e_ref e).
(* reference semantics of one metadata operation; [None] as result state means
   "not specified" (only for the out-of-contract cases) *)
Inductive spec_meta : list mentry -> meta_op -> res unit -> list mentry -> Prop :=
| SM_add_exists live id ref size :
    In (id, ref) (map e_key live) ->
    spec_meta live (MAdd id ref size) (Err E_EXISTS) live
| SM_add live id ref v :
    ~ In (id, ref) (map e_key live) -> (length live < 32)%nat ->
    meta_end live + zlen v <= 1920 ->
    spec_meta live (MAdd id ref (zlen v)) (Ok tt) (live ++ [mkEntry id ref v])
| SM_missing live o id ref :
    ~ In (id, ref) (map e_key live) ->
    (o = MDel id ref \/ exists k d, o = MWrite id ref k d) ->
    spec_meta live o (Err E_NOT_FOUND) live
| SM_write_range a id ref v b k d :
    zlen v < k + zlen d ->
    spec_meta (a ++ mkEntry id ref v :: b) (MWrite id ref k d) (Err E_SIZE_ERROR)
              (a ++ mkEntry id ref v :: b)
| SM_write a id ref v b k d :
    k + zlen d <= zlen v ->
    spec_meta (a ++ mkEntry id ref v :: b) (MWrite id ref k d) (Ok tt)
              (a ++ mkEntry id ref (splice k d v) :: b)
| SM_del a id ref v b :
    (length (a ++ mkEntry id ref v :: b) < 32)%nat ->
    spec_meta (a ++ mkEntry id ref v :: b) (MDel id ref) (Ok tt)
      (a ++ map (fun e => mkEntry (e_id e) (e_ref e)
                            (del_value (align8 (zlen v)) (e_val e))) b).
Inductive spec_metas : list mentry -> list meta_op -> list (res unit) -> list mentry -> Prop :=
| SMS_nil live : spec_metas live [] [] live
| SMS_cons l1 o x l2 os xs l3 :
    spec_meta l1 o x l2 -> spec_metas l2 os xs l3 -> spec_metas l1 (o :: os) (x :: xs) l3.

(* ---- the layout bpak.h documents, as (offset, length) of each field ---- *)
Definition doc_part_start (i : nat) : Z := 520 + 32 * Z.of_nat i.
Definition doc_meta_start (i : nat) : Z := 8 + 16 * Z.of_nat i.

(* ---- what bpak_valid_header is documented to check ------------------- *)
(* entries before the first empty slot *)
Fixpoint until_empty {A} (id : A -> Z) (l : list A) : list A :=
  match l with [] => [] | x :: r => if id x =? 0 then [] else x :: until_empty id r end.
Definition parts_aligned (h : header) : Prop :=
  Forall (fun p => ((p_size p + p_pad_bytes p) mod 2^64) mod 512 = 0)
         (until_empty p_id (h_parts h)).
Definition metas_in_bounds (h : header) : Prop :=
  Forall (fun m => m_offset m + m_size m <= 1920) (until_empty m_id (h_meta h)).

(* ---- where part data lives ------------------------------------------- *)
Definition stored_size (p : parth) : Z :=
  if Z.testbit (p_flags p) 1 then p_transport_size p else p_size p + p_pad_bytes p.
Definition sum_sizes (l : list parth) : Z :=
  fold_right (fun p acc => stored_size p + acc) 0 l.
