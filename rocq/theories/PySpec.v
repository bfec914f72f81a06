(* PySpec.v -- what a Python program sees: a package as settings, an ordered
   list of metadata entries, an ordered list of files, and the objects handed
   out so far (each knows only an id).  Nothing here refers to headers, file
   layout or the model's loops; [fentry], [mentry], [purge] and [del_value]
   are those of PkgSpec.v and HeaderSpec.v. *)
From Verif Require Import Base HeaderModel HeaderSpec CrcModel HashModel VerifyModel PkgModel PkgSpec PyModel.

Record apkg := mkA {
  a_kind : Z; a_sigkind : Z; a_key : Z; a_keystore : Z; a_sig : bytes;
  a_metas : list mentry; a_files : list fentry; a_objs : list handle }.

Definition a_get (a : apkg) (x : attr) : Z :=
  match x with HashKind => a_kind a | SignatureKind => a_sigkind a | KeyId => a_key a | KeystoreId => a_keystore a end.
(* what is stored of an int: 8 bits for the kinds, 32 for the ids *)
Definition a_set (a : apkg) (x : attr) (n : Z) : apkg :=
  match x with
  | HashKind => mkA (n mod 2^8) (a_sigkind a) (a_key a) (a_keystore a) (a_sig a) (a_metas a) (a_files a) (a_objs a)
  | SignatureKind => mkA (a_kind a) (n mod 2^8) (a_key a) (a_keystore a) (a_sig a) (a_metas a) (a_files a) (a_objs a)
  | KeyId => mkA (a_kind a) (a_sigkind a) (n mod 2^32) (a_keystore a) (a_sig a) (a_metas a) (a_files a) (a_objs a)
  | KeystoreId => mkA (a_kind a) (a_sigkind a) (a_key a) (n mod 2^32) (a_sig a) (a_metas a) (a_files a) (a_objs a)
  end.
Definition a_set_sig (a : apkg) (s : bytes) : apkg :=
  mkA (a_kind a) (a_sigkind a) (a_key a) (a_keystore a) s (a_metas a) (a_files a) (a_objs a).
Definition a_set_metas (a : apkg) (ms : list mentry) : apkg :=
  mkA (a_kind a) (a_sigkind a) (a_key a) (a_keystore a) (a_sig a) ms (a_files a) (a_objs a).
Definition a_set_files (a : apkg) (fs : list fentry) : apkg :=
  mkA (a_kind a) (a_sigkind a) (a_key a) (a_keystore a) (a_sig a) (a_metas a) fs (a_objs a).
Definition a_set_objs (a : apkg) (xs : list handle) : apkg :=
  mkA (a_kind a) (a_sigkind a) (a_key a) (a_keystore a) (a_sig a) (a_metas a) (a_files a) xs.
(* a new object *)
Definition a_new (a : apkg) (x : handle) : pyres * apkg :=
  (Val (VObj (length (a_objs a))), a_set_objs a (a_objs a ++ [x])).
Definition a_news (a : apkg) (xs : list handle) : pyres * apkg :=
  (Val (VObjs (seq (length (a_objs a)) (length xs))), a_set_objs a (a_objs a ++ xs)).

(* an int assigned to an attribute: an exception, or the value *)
Definition int_arg (v : pyarg) : pyexc + Z :=
  match v with
  | AInt n => if (n <? 0) || (n >=? 2^64) then inl XOverflow else inr n
  | _ => inl XType
  end.
(* bytes, or an ASCII str, stored with a terminating 0 *)
Definition data_arg (v : pyarg) : pyexc + bytes :=
  match v with
  | ABytes b => inr b
  | AStr cs => if forallb (fun c => c <? 128) cs then inr (cs ++ [0]) else inl XUnicode
  | _ => inl XType
  end.

(* the entry / file with a given id, with what comes before and after it *)
Fixpoint meta_split (id ref : Z) (l : list mentry) : option (list mentry * bytes * list mentry) :=
  match l with
  | [] => None
  | e :: r =>
      if (e_id e =? id) && (e_ref e =? ref) then Some ([], e_val e, r)
      else match meta_split id ref r with Some (x, v, y) => Some (e :: x, v, y) | None => None end
  end.
Fixpoint file_split (id : Z) (l : list fentry) : option (list fentry * fentry * list fentry) :=
  match l with
  | [] => None
  | f :: r =>
      if f_id f =? id then Some ([], f, r)
      else match file_split id r with Some (x, g, y) => Some (f :: x, g, y) | None => None end
  end.
Definition stored_bytes (fs : list fentry) : Z := zlen (concat (map file_stored fs)).
(* the text before the first 0 *)
Fixpoint text (v : bytes) : bytes := match v with [] => [] | c :: r => if c =? 0 then [] else c :: text r end.
Definition set_obj (a : apkg) (k : nat) (x : handle) : apkg := a_set_objs a (list_upd k x (a_objs a)).

(* data and number of bytes of a new metadata entry *)
Definition new_meta (data : option pyarg) (size : option Z) : pyexc + (bytes * Z) :=
  let n := match size with Some n => n | None => -1 end in
  if (n <? - 2^63) || (n >=? 2^63) then inl XOverflow
  else match data with
  | None => if n <? 0 then inl XType else inr ([], n)
  | Some v => match data_arg v with inl e => inl e | inr d => inr (d, if n <? 0 then zlen d else n) end
  end.

(* ---- the effect of each call: result [r] and package [a'] ---------------- *)
Definition py_spec (a : apkg) (c : pycall) (r : pyres) (a' : apkg) : Prop :=
  let ret x := (r, a') = (x, a) in
  (* on the k-th object, if it is a Meta whose entry still exists *)
  let metaobj k (f : Z -> Z -> list mentry -> bytes -> list mentry -> Prop) :=
    match nth_error (a_objs a) k with
    | Some (HMeta id ref) =>
        match meta_split id ref (a_metas a) with
        | Some (x, v, y) => f id ref x v y
        | None => ret (Exc XKey)
        end
    | _ => ret (Exc XAttribute)
    end in
  let partobj k (f : Z -> list fentry -> fentry -> list fentry -> Prop) :=
    match nth_error (a_objs a) k with
    | Some (HPart id) =>
        match file_split id (a_files a) with
        | Some (x, g, y) => f id x g y
        | None => ret (Exc XKey)
        end
    | _ => ret (Exc XAttribute)
    end in
  match c with
  | KClose => False
  | KAddFile name data =>
      match data with
      | None => ret (Exc XError)
      | Some d =>
          match file_split (bpak_id name) (a_files a) with
          | Some _ => ret (Exc XError)
          | None =>
              if (32 <=? length (a_files a))%nat then ret (Exc XError)
              else (r, a') = a_new (a_set_files a (a_files a ++ [mkFile (bpak_id name) 0 d])) (HPart (bpak_id name))
          end
      end
  | KAddMeta id ref data size =>
      match new_meta data size with
      | inl e => ret (Exc e)
      | inr (d, n) =>
          match meta_split (id mod 2^32) (ref mod 2^32) (a_metas a) with
          | Some _ => ret (Exc XError)
          | None =>
              if (32 <=? length (a_metas a))%nat then ret (Exc XError)
              else (* bytes beyond the data are not specified *)
                exists rest, zlen rest = n - zlen (ztake n d) /\
                (r, a') = a_new (a_set_metas a (a_metas a ++ [mkEntry (id mod 2^32) (ref mod 2^32) (ztake n d ++ rest)]))
                            (HMeta (id mod 2^32) (ref mod 2^32))
          end
      end
  | KGetPart id =>
      match file_split (id mod 2^32) (a_files a) with
      | Some _ => (r, a') = a_new a (HPart (id mod 2^32))
      | None => ret (Exc XKey)
      end
  | KGetMeta id ref =>
      match meta_split (id mod 2^32) (ref mod 2^32) (a_metas a) with
      | Some _ => (r, a') = a_new a (HMeta (id mod 2^32) (ref mod 2^32))
      | None => ret (Exc XKey)
      end
  | KDigest =>
      if hash_supported (a_kind a) then exists d, zlen d = digest_len (a_kind a) /\ ret (Val (VBytes d))
      else ret (Val VNone)
  | KGet x => ret (Val (VInt (a_get a x)))
  | KSet x v => match int_arg v with inl e => ret (Exc e) | inr n => (r, a') = (Val VNone, a_set a x n) end
  | KSignature => ret (Val (VBytes (a_sig a)))
  | KSetSignature v =>
      match v with
      | ADel | ANone => (r, a') = (Val VNone, a_set_sig a [])
      | ABytes b => (r, a') = (Val VNone, a_set_sig a b)
      | _ => ret (Exc XType)
      end
  | KSize => ret (Val (VInt (4096 + zlen (concat (map f_data (a_files a))))))
  | KInstalledSize => ret (Val (VInt (stored_bytes (a_files a))))
  | KParts => (r, a') = a_news a (map (fun f => HPart (f_id f)) (a_files a))
  | KMetas => (r, a') = a_news a (map (fun e => HMeta (e_id e) (e_ref e)) (a_metas a))
  | KId k =>
      match nth_error (a_objs a) k with
      | Some (HMeta id _) => ret (Val (VInt id))
      | Some (HPart id) => ret (Val (VInt id))
      | None => ret (Exc XAttribute)
      end
  | KRef k =>
      match nth_error (a_objs a) k with
      | Some (HMeta _ ref) => ret (Val (VInt ref))
      | _ => ret (Exc XAttribute)
      end
  | KSetId k v =>
      match nth_error (a_objs a) k with
      | None => ret (Exc XAttribute)
      | Some (HMeta _ _) =>
          match int_arg v with
          | inl e => ret (Exc e)
          | inr n => metaobj k (fun id ref x v y =>
              (r, a') = (Val VNone, set_obj (a_set_metas a (x ++ mkEntry (n mod 2^32) ref v :: y)) k (HMeta (n mod 2^32) ref)))
          end
      | Some (HPart _) =>
          match int_arg v with
          | inl e => ret (Exc e)
          | inr n => partobj k (fun id x g y =>
              (r, a') = (Val VNone, set_obj (a_set_files a (x ++ mkFile (n mod 2^32) (f_flags g) (f_data g) :: y)) k (HPart (n mod 2^32))))
          end
      end
  | KSetRef k v =>
      match nth_error (a_objs a) k with
      | Some (HMeta _ _) =>
          match (match v with ANone => inr 0 | _ => int_arg v end) with
          | inl e => ret (Exc e)
          | inr n => metaobj k (fun id ref x v y =>
              (r, a') = (Val VNone, set_obj (a_set_metas a (x ++ mkEntry id (n mod 2^32) v :: y)) k (HMeta id (n mod 2^32))))
          end
      | _ => ret (Exc XAttribute)
      end
  | KObjSize k =>
      match nth_error (a_objs a) k with
      | Some (HMeta _ _) => metaobj k (fun _ _ _ v _ => ret (Val (VInt (zlen v))))
      | _ => partobj k (fun _ _ g _ => ret (Val (VInt (zlen (file_stored g)))))
      end
  | KRaw k => metaobj k (fun _ _ _ v _ => ret (Val (VBytes v)))
  | KString k => metaobj k (fun _ _ _ v _ =>
      if forallb (fun c => c <? 128) (text v) then ret (Val (VStr (text v))) else ret (Exc XUnicode))
  | KSetRaw k w => metaobj k (fun id ref x v y =>
      match data_arg w with
      | inl e => ret (Exc e)
      | inr d =>
          if zlen d <=? zlen v
          then (r, a') = (Val VNone, a_set_metas a (x ++ mkEntry id ref (d ++ zeros (zlen v - zlen d)) :: y))
          else ret (Exc XValue)
      end)
  | KOffset k => partobj k (fun _ x _ _ => ret (Val (VInt (4096 + stored_bytes x))))
  | KEncoded k => partobj k (fun _ _ _ _ => ret (Val (VBool false)))
  (* empty files cannot be read *)
  | KRead k => partobj k (fun _ _ g _ =>
      match f_data g with [] => ret (Exc XIO) | _ => ret (Val (VBytes (f_data g))) end)
  | KDelete k =>
      match nth_error (a_objs a) k with
      | None => ret (Exc XAttribute)
      | Some (HMeta _ _) => metaobj k (fun _ _ x v y =>
          (r, a') = (Val VNone, a_set_metas a
             (x ++ map (fun e => mkEntry (e_id e) (e_ref e) (del_value (align8 (zlen v)) (e_val e))) y)))
      | Some (HPart id) =>
          match file_split id (a_files a) with
          | None => ret (Exc XError)
          | Some (x, g, y) =>
              (r, a') = (Val VNone, a_set_metas (a_set_files a (x ++ y)) (purge (fun e => e_ref e =? id) 1920 (a_metas a)))
          end
      end
  end.
Inductive py_specs : apkg -> list pycall -> list pyres -> apkg -> Prop :=
| PS_nil a : py_specs a [] [] a
| PS_cons a c r a1 cs rs a2 : py_spec a c r a1 -> py_specs a1 cs rs a2 -> py_specs a (c :: cs) (r :: rs) a2.

(* ---- calls covered: the others are the subject of C67..C72 ---------------- *)
Definition not_del (v : pyarg) : Prop := v <> ADel.
Definition py_ok (a : apkg) (c : pycall) : Prop :=
  match c with
  | KClose => False
  | KAddFile name data =>
      bytes_ok name /\ bpak_id name <> 0 /\ hash_supported (a_kind a) = true /\
      (forall d, data = Some d -> 4096 + stored_bytes (a_files a) + zlen d + 512 <= 2^63)
  | KAddMeta id ref data size =>
      id mod 2^32 <> 0 /\
      (forall b, data = Some (ABytes b) -> bytes_ok b) /\ (forall cs, data = Some (AStr cs) -> Forall (fun c => 0 <= c) cs) /\
      (forall d n, new_meta data size = inr (d, n) -> n < 65536 /\ meta_end (a_metas a) + n <= 1920)
  | KGetPart id => id mod 2^32 <> 0
  | KGetMeta id _ => id mod 2^32 <> 0
  | KSet _ v => not_del v
  | KSetSignature v => forall b, v = ABytes b -> bytes_ok b /\ zlen b <= 512
  | KSetId k v => not_del v /\
      forall n, int_arg v = inr n -> n mod 2^32 <> 0 /\
        match nth_error (a_objs a) k with
        | Some (HMeta id ref) => n mod 2^32 = id \/ ~ In (n mod 2^32, ref) (map e_key (a_metas a))
        | Some (HPart id) => n mod 2^32 = id \/ ~ In (n mod 2^32) (map f_id (a_files a))
        | None => True
        end
  | KSetRef k v => not_del v /\
      forall n, (v = ANone /\ n = 0 \/ int_arg v = inr n) ->
        match nth_error (a_objs a) k with
        | Some (HMeta id ref) => n mod 2^32 = ref \/ ~ In (id, n mod 2^32) (map e_key (a_metas a))
        | _ => True
        end
  | KSetRaw k v => not_del v /\ (forall b, v = ABytes b -> bytes_ok b) /\ (forall cs, v = AStr cs -> Forall (fun c => 0 <= c) cs)
  | KString k =>
      forall id ref x v y, nth_error (a_objs a) k = Some (HMeta id ref) -> meta_split id ref (a_metas a) = Some (x, v, y) -> In 0 v
  | KDelete k =>
      (length (a_metas a) < 32)%nat /\
      match nth_error (a_objs a) k with Some (HPart _) => hash_supported (a_kind a) = true | _ => True end
  | _ => True
  end.
(* a program all of whose calls are covered, whatever the unspecified bytes are *)
Fixpoint py_allowed (a : apkg) (cs : list pycall) : Prop :=
  match cs with
  | [] => True
  | c :: rest => py_ok a c /\ (forall r a1, py_spec a c r a1 -> py_allowed a1 rest)
  end.

(* ---- the file [f] is a package with content [a] ----------------------------- *)
Definition package_file (f : bytes) (a : apkg) : Prop :=
  exists h (es : list (parth * bytes)),
    holds (mkPkg h f) es /\ offsets_from 4096 es /\
    Forall2 (fun g e => snd e = file_stored g /\ p_id (fst e) = f_id g /\ p_flags (fst e) = f_flags g /\
               p_size (fst e) = zlen (f_data g) /\ p_pad_bytes (fst e) = padding (zlen (f_data g))) (a_files a) es /\
    Forall (fun g => Z.testbit (f_flags g) 1 = false) (a_files a) /\
    metas_are (h_meta h) (h_metadata h) (a_metas a) /\ no_ghost_refs (h_meta h) /\
    h_magic h = 0x42504132 /\
    (h_hash_kind h = a_kind a /\ h_signature_kind h = a_sigkind a /\ h_key_id h = a_key a /\ h_keystore_id h = a_keystore a) /\
    (zlen (a_sig a) <= 512 /\ h_signature_sz h = zlen (a_sig a) /\ ztake (zlen (a_sig a)) (h_signature h) = a_sig a).

(* ---- several sessions on one file ------------------------------------------- *)
(* objects do not survive a session; the last call of a session is close() *)
Definition forget (a : apkg) : apkg := a_set_objs a [].
Inductive session_specs : apkg -> list (list pycall) -> list (list pyres) -> apkg -> Prop :=
| SS_nil a : session_specs a [] [] a
| SS_cons a cs rs a1 css rss a2 : py_specs (forget a) cs rs a1 -> session_specs a1 css rss a2 ->
    session_specs a (cs :: css) ((rs ++ [Val VNone]) :: rss) a2.
(* hash kind 0 makes a package that cannot be opened *)
Fixpoint sessions_allowed (a : apkg) (css : list (list pycall)) : Prop :=
  match css with
  | [] => True
  | cs :: rest => a_kind a <> 0 /\ py_allowed (forget a) cs /\
      forall rs a1, py_specs (forget a) cs rs a1 -> sessions_allowed a1 rest
  end.
(* a package made from nothing: SHA256, PRIME256v1, no key, no content *)
Definition new_apkg : apkg := mkA 1 2 0 0 [] [] [] [].

(* ---- the payload hash stored in the file -------------------------------------- *)
(* it covers the stored bytes of all files whose flag 0 is clear *)
Definition payload_hash_ok (sha : hashfn) (f : bytes) (a : apkg) : Prop :=
  slice 0 (digest_len (a_kind a)) (h_payload_hash (dec_header (ztake 4096 f))) =
  sha (a_kind a) (concat (map file_stored (filter (fun g => negb (Z.testbit (f_flags g) 0)) (a_files a)))).
Definition sets_hash_kind (c : pycall) : bool := match c with KSet HashKind _ => true | _ => false end.

(* ---- calls that only look --------------------------------------------------------- *)
Definition reading (c : pycall) : bool :=
  match c with
  | KGetPart _ | KGetMeta _ _ | KDigest | KGet _ | KSignature | KSize | KInstalledSize | KParts | KMetas
  | KId _ | KRef _ | KObjSize _ | KRaw _ | KString _ | KOffset _ | KEncoded _ | KRead _ => true
  | _ => false
  end.
