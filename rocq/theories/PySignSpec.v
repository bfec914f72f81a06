(* PySignSpec.v -- what a Python program that signs and verifies sees.  To the
   package of PySpec.v is added whose signature it carries: [Some k] after a
   successful sign with [k], as long as nothing is changed; [None]: not known. *)
From Coq Require Import String.
From Verif Require Import Base HeaderModel HeaderSpec CrcModel HashModel MerkleModel MerkleSpec VerifyModel VerifySign PkgModel PkgSpec PyModel PySpec PySignModel.

(* every Merkle root hash in the package belongs to a file whose hash tree is in
   the package too (true of packages without root hashes) *)
Definition trees_good (sha : hashfn) (a : apkg) : Prop :=
  (forall e, In e (a_metas a) -> e_id e = ID_MERKLE_SALT \/ e_id e = ID_MERKLE_ROOT_HASH -> zlen (e_val e) = 32) /\
  (forall e, In e (a_metas a) -> e_id e = ID_MERKLE_ROOT_HASH ->
    exists name f t salt ls,
      e_ref e = bpak_id name /\ bytes_ok name /\
      In f (a_files a) /\ f_id f = bpak_id name /\
      In t (a_files a) /\ f_id t = bpak_id (name ++ bytes_of "-hash-tree") /\
      In (mkEntry ID_MERKLE_SALT (bpak_id name) salt) (a_metas a) /\
      0 < zlen (f_data f) <= 2^33 /\ zlen (f_data f) mod 4096 = 0 /\
      hash_levels sha salt (f_data f) ls /\ f_data t = hash_tree ls /\ e_val e = root_hash sha salt (f_data f) ls).

Section Sig.
Context {K : Type} (sha : hashfn) (sg : sigscheme K) (pub_of : K -> K).

(* the back end returns *)
Definition total_scheme : Prop := forall s d k key, (exists b, sg_verify sg s d k key = Ok b) \/ (exists e, sg_verify sg s d k key = Err e).
Definition can_sign (k : K) : Prop := forall d kind, hash_supported kind = true -> zlen d = digest_len kind -> exists s, sg_sign sg d kind k = Ok s.

Definition spec2 (x : apkg * option K) (c : pycall2 K) (r : pyres) (x' : apkg * option K) : Prop :=
  let (a, g) := x in let (a', g') := x' in
  match c with
  | Plain c => py_spec a c r a' /\ g' = if reading c then g else None
  | Sign None => r = Exc XError /\ a' = a /\ g' = g
  | Sign (Some k) =>
      if hash_supported (a_kind a)
      then exists sig, zlen sig <= 512 /\ r = Val (VBool true) /\ a' = a_set_sig a sig /\ g' = Some k
      else r = Exc XError /\ a' = a /\ g' = g
  | Verify None => r = Exc XError /\ a' = a /\ g' = g
  | Verify (Some k) => a' = a /\ g' = g /\ (r = Val (VBool true) \/ r = Exc XError) /\
      (forall k', g = Some k' -> k = pub_of k' -> r = Val (VBool true))
  end.
Definition ok2 (x : apkg * option K) (c : pycall2 K) : Prop :=
  match c with
  | Plain c => py_ok (fst x) c
  | Sign (Some k) => can_sign k
  | Verify (Some _) => trees_good sha (fst x)
  | _ => True
  end.
Definition reading2 (c : pycall2 K) : bool := match c with Plain c => reading c | Sign _ => false | Verify _ => true end.
Inductive specs2 : apkg * option K -> list (pycall2 K) -> list pyres -> apkg * option K -> Prop :=
| S2_nil x : specs2 x [] [] x
| S2_cons x c r x1 cs rs x2 : spec2 x c r x1 -> specs2 x1 cs rs x2 -> specs2 x (c :: cs) (r :: rs) x2.
Fixpoint allowed2 (x : apkg * option K) (cs : list (pycall2 K)) : Prop :=
  match cs with
  | [] => True
  | c :: rest => ok2 x c /\ (forall r x1, spec2 x c r x1 -> allowed2 x1 rest)
  end.
(* blocks "with Package(filename, mode) as p"; in mode "r" only calls that look *)
Definition forget2 (x : apkg * option K) : apkg * option K := (forget (fst x), snd x).
Inductive session_specs2 : apkg * option K -> list (bool * list (pycall2 K)) -> list (list pyres) -> apkg * option K -> Prop :=
| SS2_nil x : session_specs2 x [] [] x
| SS2_cons x w cs rs x1 css rss x2 : specs2 (forget2 x) cs rs x1 -> session_specs2 x1 css rss x2 ->
    session_specs2 x ((w, cs) :: css) ((rs ++ [Val VNone]) :: rss) x2.
Fixpoint sessions_allowed2 (x : apkg * option K) (css : list (bool * list (pycall2 K))) : Prop :=
  match css with
  | [] => True
  | (w, cs) :: rest => a_kind (fst x) <> 0 /\ (w = false -> forallb reading2 cs = true) /\ allowed2 (forget2 x) cs /\
      forall rs x1, specs2 (forget2 x) cs rs x1 -> sessions_allowed2 x1 rest
  end.
End Sig.

(* ---- two packages with the same content, except for the data of files the
   hash does not cover ---- *)
Definition same_package (a b : apkg) : Prop :=
  a_kind a = a_kind b /\ a_sigkind a = a_sigkind b /\ a_key a = a_key b /\ a_keystore a = a_keystore b /\
  a_metas a = a_metas b /\
  Forall2 (fun f g => f_id f = f_id g /\ f_flags f = f_flags g /\ zlen (f_data f) = zlen (f_data g) /\
             (Z.testbit (f_flags f) 0 = false -> f_data f = f_data g)) (a_files a) (a_files b).
