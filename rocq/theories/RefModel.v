(* RefModel.v -- the Python module's objects and their reference counts:
   python/package.c, part.c, meta.c, python_wrapper.c.  What a call computes is
   abstracted to results that may be anything (an oracle); followed are the
   objects that live on the heap, the references between them, the references
   the program's variables hold, and the packages' files.

   Simplified: integers, None and exceptions are not followed; a call with an
   argument of another type raises an exception before it does anything; the
   log function does not use the module itself. *)
From Coq Require Export Arith Bool List Lia.
Export ListNotations.

Inductive okind := OString (* str, bytes *) | OTemp (* a str encoded by a call, for itself *) | OPackage | OPart | OMeta | OList | OFunction.
Definition id : Type := okind * nat.
Definition id_dec : forall a b : id, {a = b} + {a <> b}.
Proof. decide equality; [apply Nat.eq_dec | decide equality]. Defined.
(* Broken: the FILE has been closed but the pointer to it is kept *)
Inductive fstate := Open | Closed | Broken.
Record obj := mkObj {
  o_refs : nat;        (* ob_refcnt *)
  o_items : list id;   (* what it holds a reference to *)
  o_file : fstate }.   (* pkg.fp; Closed for other objects *)
Definition heap := list (id * obj).
Record state := mkState { st_pos : nat; st_heap : heap; st_next : nat; st_log : option id (* log_func *) }.
Fixpoint find (i : id) (h : heap) : option obj :=
  match h with [] => None | (j, o) :: r => if id_dec i j then Some o else find i r end.
Fixpoint del (i : id) (h : heap) : heap :=
  match h with [] => [] | (j, o) :: r => if id_dec i j then r else (j, o) :: del i r end.
Fixpoint put (i : id) (x : obj) (h : heap) : heap :=
  match h with [] => [] | (j, o) :: r => if id_dec i j then (j, x) :: r else (j, o) :: put i x r end.

(* None: undefined behaviour *)
Definition M (A : Type) := (nat -> nat) -> state -> option (A * state).
Definition ret {A} (a : A) : M A := fun _ s => Some (a, s).
Definition ub {A} : M A := fun _ _ => None.
Definition bind {A B} (m : M A) (k : A -> M B) : M B := fun o s => match m o s with Some (a, s1) => k a o s1 | None => None end.
Notation "x <- m ;; k" := (bind m (fun x => k)) (at level 61, m at next level, right associativity).
Notation "m ;; k" := (bind m (fun _ => k)) (at level 61, right associativity).
Definition ask : M nat := fun o s => Some (o (st_pos s), mkState (S (st_pos s)) (st_heap s) (st_next s) (st_log s)).
Definition with_heap (h : heap) (s : state) : state := mkState (st_pos s) h (st_next s) (st_log s).
(* reading an object that is gone is undefined *)
Definition get (i : id) : M obj := fun _ s => match find i (st_heap s) with Some x => Some (x, s) | None => None end.
Definition set (i : id) (x : obj) : M unit := fun _ s => Some (tt, with_heap (put i x (st_heap s)) s).
Definition forget (i : id) : M unit := fun _ s => Some (tt, with_heap (del i (st_heap s)) s).
(* a new object takes over the references [items] *)
Definition new (k : okind) (items : list id) (f : fstate) : M id := fun _ s =>
  Some ((k, st_next s), mkState (st_pos s) (((k, st_next s), mkObj 1 items f) :: st_heap s) (S (st_next s)) (st_log s)).
Definition incref (i : id) : M unit := x <- get i ;; set i (mkObj (S (o_refs x)) (o_items x) (o_file x)).
Fixpoint each (g : id -> M unit) (l : list id) : M unit := match l with [] => ret tt | j :: r => g j ;; each g r end.
(* Py_DECREF; package.c:42-48, part.c:25-31, meta.c:26-32; the nesting of
   objects is at most three deep *)
Fixpoint decref_n (n : nat) (i : id) : M unit :=
  match n with
  | 0 => ub
  | S n' =>
      x <- get i ;;
      if 1 <? o_refs x then set i (mkObj (o_refs x - 1) (o_items x) (o_file x))
      else match o_file x with Broken => ub | _ => forget i ;; each (decref_n n') (o_items x) end
  end.
Definition decref (i : id) : M unit := decref_n 3 i.
(* an object that is only used *)
Definition use (i : id) : M unit := get i ;; ret tt.
Definition use_all (i : id) : M unit := x <- get i ;; each use (o_items x).
(* a step that may fail *)
Definition step {A} (ok bad : M A) : M A := n <- ask ;; if n =? 0 then ok else bad.

(* python_wrapper.c:16-30: the callback's result is kept *)
Definition log_once : M unit := fun o s =>
  match st_log s with None => Some (tt, s) | Some f => (use f ;; new OString [] Closed ;; ret tt) o s end.
Fixpoint repeat_m (n : nat) (m : M unit) : M unit := match n with 0 => ret tt | S k => m ;; repeat_m k m end.
(* a call of the library: it may log *)
Definition library : M nat := n <- ask ;; repeat_m n log_once ;; ask.

Definition value := option id.
Definition nothing : M value := ret None.
(* part.c:10-23, meta.c:10-24 *)
Definition child (k : okind) (p : id) : M value := step (incref p ;; x <- new k [p] Closed ;; ret (Some x)) nothing.
(* PyUnicode_FSDecoder (a new reference) and PyUnicode_AsASCIIString; the first
   is never released: package.c:57-83, 103-123, 146-163, 186-211, 238-258 *)
Definition path_call (path : id) (after : M value) : M value :=
  incref path ;; step (a <- new OTemp [] Closed ;; rc <- library ;; decref a ;; if rc =? 0 then after else nothing) nothing.

(* package.c:50-83 and bpak_pkg_open: what the file is *)
Inductive opening := Opened | NoFile | Damaged.
Definition make_package (path : id) (r : opening) : M value :=
  path_call path
    match r with
    | Opened => x <- new OPackage [] Open ;; ret (Some x)
    | NoFile => x <- new OPackage [] Closed ;; decref x ;; nothing
    | Damaged => x <- new OPackage [] Broken ;; decref x ;; nothing
    end.
(* package.c:85-93, 438-443 *)
Definition package_close (p : id) : M value :=
  x <- get p ;; match o_file x with Broken => ub | _ => set p (mkObj (o_refs x) (o_items x) Closed) ;; nothing end.
(* package.c:95-172: verify, sign *)
Definition package_key_call (p path : id) : M value := use p ;; path_call path nothing.
(* package.c:174-271: add_file, add_key *)
Definition package_add (p path : id) : M value := use p ;; path_call path (step (child OPart p) nothing).
(* package.c:273-371; [is_str]: the data is a str and is encoded; when the
   header cannot be written the encoded string is released twice *)
Definition package_add_meta (p : id) (data : option id) (is_str write_fails : bool) : M value :=
  use p ;; match data with Some d => use d | None => ret tt end ;;
  let tail := fun rel : M unit =>
    rc <- library ;;
    if rc =? 0 then (rel ;; library ;; if write_fails then rel ;; nothing else child OMeta p) else (rel ;; nothing) in
  if is_str then step (a <- new OTemp [] Closed ;; use a ;; tail (decref a)) nothing
  else step (tail (ret tt)) nothing.
(* package.c:373-429 *)
Definition package_get (k : okind) (p : id) : M value := use p ;; step (child k p) nothing.
(* package.c:684-764: PyList_Append takes a reference of its own, the first one
   is kept.  The order of the list is not followed *)
Fixpoint append_n (n : nat) (k : okind) (p l : id) : M value :=
  match n with
  | 0 => ret (Some l)
  | S n' =>
      c <- child k p ;;
      match c with
      | None => decref l ;; nothing
      | Some x => step (incref x ;; y <- get l ;; set l (mkObj (o_refs y) (x :: o_items y) (o_file y)) ;; append_n n' k p l)
                       (decref l ;; nothing)
      end
  end.
Definition package_list (k : okind) (p : id) : M value :=
  use p ;; step (l <- new OList [] Closed ;; n <- ask ;; append_n n k p l) nothing.
(* package.c:447-682: the attributes; python_wrapper.c:62-133 *)
Definition package_op (p : id) : M value :=
  use p ;; library ;; n <- ask ;; if n =? 0 then nothing else (x <- new OString [] Closed ;; ret (Some x)).
Definition transport (p q : id) (r : option id) : M value :=
  use p ;; use q ;; match r with Some x => use x | None => ret tt end ;; library ;; nothing.
(* the methods and attributes of parts and metadata: part.c:33-206, meta.c:34-330 *)
Definition child_op (x : id) : M value :=
  use_all x ;; library ;; n <- ask ;; if n =? 0 then nothing else (y <- new OString [] Closed ;; ret (Some y)).
(* meta.c:189-258 *)
Definition meta_set_raw (x data : id) (is_str : bool) : M value :=
  use_all x ;; use data ;;
  step (if is_str then step (a <- new OTemp [] Closed ;; step (library ;; decref a ;; nothing) (decref a ;; nothing)) nothing
        else step (library ;; nothing) nothing) nothing.
(* list[n] *)
Definition list_item (l : id) (n : nat) : M value :=
  x <- get l ;; match nth_error (o_items x) n with Some i => incref i ;; ret (Some i) | None => nothing end.
(* python_wrapper.c:47-60: the reference is only borrowed *)
Definition set_log (f : option id) : M value := fun _ s => Some (None, mkState (st_pos s) (st_heap s) (st_next s) f).

(* ---- programs ---- *)
Definition var := nat.
Definition env := list (var * id).
Inductive call :=
| CString | CFunction                        (* a literal, a def *)
| CPackage (path : var) (r : opening)
| CClose (p : var) | CKey (p path : var) | CAdd (p path : var)
| CAddMeta (p : var) (data : option var) (is_str write_fails : bool)
| CGet (k : bool) (p : var) | CAll (k : bool) (p : var)    (* true: parts, false: metadata *)
| CPackageOp (p : var) | CChildOp (x : var) | CSetRaw (x data : var) (is_str : bool)
| CItem (l : var) (n : nat)
| CTransport (p q : var) (r : option var)
| CSetLog (f : option var).
Inductive stmt := SLet (x : var) (c : call) | SCopy (x y : var) | SDel (x : var).
Fixpoint look (x : var) (e : env) : option id := match e with [] => None | (y, i) :: r => if x =? y then Some i else look x r end.
Fixpoint unbind (x : var) (e : env) : env := match e with [] => [] | (y, i) :: r => if x =? y then r else (y, i) :: unbind x r end.
Definition kind_of (b : bool) : okind := if b then OPart else OMeta.
Definition okind_eqb (a b : okind) : bool :=
  match a, b with OString, OString | OTemp, OTemp | OPackage, OPackage | OPart, OPart | OMeta, OMeta | OList, OList | OFunction, OFunction => true | _, _ => false end.
(* an argument of the right type, or an exception *)
Definition arg (k : okind) (x : var) (e : env) (body : id -> M value) : M value :=
  match look x e with Some i => if okind_eqb (fst i) k then body i else nothing | None => nothing end.
Definition arg_child (x : var) (e : env) (body : id -> M value) : M value :=
  match look x e with Some i => if okind_eqb (fst i) OPart || okind_eqb (fst i) OMeta then body i else nothing | None => nothing end.
Definition run_call (e : env) (c : call) : M value :=
  match c with
  | CString => x <- new OString [] Closed ;; ret (Some x)
  | CFunction => x <- new OFunction [] Closed ;; ret (Some x)
  | CPackage path r => arg OString path e (fun i => make_package i r)
  | CClose p => arg OPackage p e package_close
  | CKey p path => arg OPackage p e (fun a => arg OString path e (fun b => package_key_call a b))
  | CAdd p path => arg OPackage p e (fun a => arg OString path e (fun b => package_add a b))
  | CAddMeta p None s w => arg OPackage p e (fun a => package_add_meta a None false w)
  | CAddMeta p (Some d) s w => arg OPackage p e (fun a => arg OString d e (fun b => package_add_meta a (Some b) s w))
  | CGet k p => arg OPackage p e (package_get (kind_of k))
  | CAll k p => arg OPackage p e (package_list (kind_of k))
  | CPackageOp p => arg OPackage p e package_op
  | CChildOp x => arg_child x e child_op
  | CSetRaw x d s => arg OMeta x e (fun a => arg OString d e (fun b => meta_set_raw a b s))
  | CItem l n => arg OList l e (fun a => list_item a n)
  | CTransport p q None => arg OPackage p e (fun a => arg OPackage q e (fun b => transport a b None))
  | CTransport p q (Some r) => arg OPackage p e (fun a => arg OPackage q e (fun b => arg OPackage r e (fun c => transport a b (Some c))))
  | CSetLog None => set_log None
  | CSetLog (Some f) => arg OFunction f e (fun i => set_log (Some i))
  end.
Definition release (o : option id) : M unit := match o with Some i => decref i | None => ret tt end.
Definition run_stmt (e : env) (t : stmt) : M env :=
  match t with
  | SLet x c => r <- run_call e c ;; match r with Some i => release (look x e) ;; ret ((x, i) :: unbind x e) | None => ret e end
  | SCopy x y => match look y e with Some i => incref i ;; release (look x e) ;; ret ((x, i) :: unbind x e) | None => ret e end
  | SDel x => release (look x e) ;; ret (unbind x e)
  end.
Fixpoint run_prog (e : env) (l : list stmt) : M env := match l with [] => ret e | t :: r => e1 <- run_stmt e t ;; run_prog e1 r end.
(* the program ends: its variables go *)
Definition whole (l : list stmt) : M unit := e <- run_prog [] l ;; each decref (map snd e).
Definition start : state := mkState 0 [] 0 None.
