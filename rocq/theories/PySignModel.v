(* PySignModel.v -- Package.sign and Package.verify of the Python extension
   module (python/package.c:95-173) on top of PyModel.  Definitions only.
   A key file is represented by the key in it; None: it cannot be loaded.
   The path argument is taken to be ASCII. *)
From Verif Require Import Base HeaderModel CrcModel HashModel MerkleModel VerifyModel PkgModel PyModel.

Inductive pycall2 (K : Type) :=
| Plain (c : pycall)
| Sign (k : option K)        (* sign(sign_key_path) *)
| Verify (k : option K).     (* verify(verify_key_path) *)
Arguments Plain {K}. Arguments Sign {K}. Arguments Verify {K}.

(* lib/pkg_sign.c:20-63: the payload hash is updated before the key is loaded *)
Definition sign_no_key (sha : hashfn) (p : pkg) : pkg * res unit :=
  match pkg_update_hash sha p (Some 64) with
  | (p1, Ok _) => (p1, Err E_FILE_NOT_FOUND)
  | (p1, Err e) => (p1, Err e)
  | (p1, UB) => (p1, UB)
  | (p1, Stuck) => (p1, Stuck)
  end.
(* python/package.c:145-173.  On a stream opened for reading only the header in
   memory changes: bpak_pkg_write_header fails.  (On a NULL stream the hash kind
   in memory is 0, and nothing is read: see PyFrozen.) *)
Definition py_sign {K} (sha : hashfn) (sg : sigscheme K) (junk : bytes) (s : pyst) (key : option K) : pyst * pyres :=
  let p := py_pkg (st_obj s) in
  let x := match key with None => sign_no_key sha p | Some k => pkg_sign sha sg junk p k end in
  let y := match py_fp (st_obj s), snd x with
           | FpOpen false, Ok _ => (mkPkg (pk_header (fst x)) (pk_file p), Err E_WRITE_ERROR)
           | _, _ => x
           end in
  match call_c s y with
  | (s', inl r) => (s', r)
  | (s', inr _) => (s', Val (VBool true))
  end.
(* python/package.c:95-143: the key is loaded first *)
Definition py_verify {K} (sha : hashfn) (sg : sigscheme K) (junk : bytes) (s : pyst) (key : option K) : pyst * pyres :=
  match key with
  | None => (s, Exc XError)
  | Some k =>
      match call_c s (py_pkg (st_obj s), pkg_verify sha sg junk (py_pkg (st_obj s)) k) with
      | (s', inl r) => (s', r)
      | (s', inr _) => (s', Val (VBool true))
      end
  end.
Definition py_step2 {K} (sha : hashfn) (sg : sigscheme K) (junk : bytes) (s : pyst) (c : pycall2 K) : pyst * pyres :=
  match c with
  | Plain c => py_step sha s c
  | Sign k => py_sign sha sg junk s k
  | Verify k => py_verify sha sg junk s k
  end.
(* as py_run and py_sessions of PyModel; [w]: the mode is "r+", otherwise "r" *)
Fixpoint py_run2 {K} (sha : hashfn) (sg : sigscheme K) (junk : bytes) (s : pyst) (cs : list (pycall2 K)) : pyst * list pyres :=
  match cs with
  | [] => (s, [])
  | c :: r =>
      match py_step2 sha sg junk s c with
      | (s1, Crash) => (s1, [Crash])
      | (s1, Hang) => (s1, [Hang])
      | (s1, x) => let (s2, xs) := py_run2 sha sg junk s1 r in (s2, x :: xs)
      end
  end.
Fixpoint py_sessions2 {K} (sha : hashfn) (sg : sigscheme K) (junk f : bytes) (css : list (bool * list (pycall2 K)))
    : bytes * list (list pyres) :=
  match css with
  | [] => (f, [])
  | (w, cs) :: rest =>
      match py_new sha w (Some f) with
      | (Some _, inl s) =>
          let (s', rs) := py_run2 sha sg junk s (cs ++ [Plain KClose]) in
          if finished rs then let (f2, rss) := py_sessions2 sha sg junk (st_file s') rest in (f2, rs :: rss)
          else (st_file s', [rs])
      | (Some f1, inr r) => (f1, [[r]])
      | (None, _) => (f, [])
      end
  end.
