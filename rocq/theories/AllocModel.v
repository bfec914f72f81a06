(* AllocModel.v -- what the code acquires and releases: memory, files, memory
   maps, library contexts.  Everything else a call does is abstracted to a
   result code that may be anything (an oracle), so every theorem holds for all
   inputs, file contents and failures.  Return codes: 0 is BPAK_OK, any other
   number an error.  lib/mem.c, and the acquisitions of lib/*.c, src/*.c,
   python/package.c as cited.

   Simplified: loops that acquire nothing are one unknown result; the block
   liblzma allocates for a coder is one block; contexts of the hash functions
   (no memory) and mbedTLS's own allocations inside a context are not followed. *)
From Coq Require Export Arith Bool List Lia.
Export ListNotations.

(* what can be held *)
Inductive kind :=
| KMem (user : bool)   (* memory: from the user's allocator, or from libc *)
| KFile                (* fopen *)
| KMap                 (* mmap *)
| KPk                  (* mbedtls_pk_init *)
| KRng | KEnt.         (* mbedtls_ctr_drbg_init, mbedtls_entropy_init *)
Definition kind_eqb (a b : kind) : bool :=
  match a, b with
  | KMem x, KMem y => Bool.eqb x y
  | KFile, KFile | KMap, KMap | KPk, KPk | KRng, KRng | KEnt, KEnt => true
  | _, _ => false
  end.
Definition held := list (nat * kind).
Record state := mkState { st_pos : nat; st_held : held; st_next : nat }.
(* a pointer: NULL, or the number of what it points to *)
Definition ptr := option nat.
(* None: undefined behaviour (a NULL pointer or a released object is used, an
   object is released twice or by the wrong function) *)
Definition M (A : Type) := (nat -> nat) -> state -> option (A * state).
Definition ret {A} (a : A) : M A := fun _ s => Some (a, s).
Definition bind {A B} (m : M A) (k : A -> M B) : M B := fun o s => match m o s with Some (a, s1) => k a o s1 | None => None end.
Notation "x <- m ;; k" := (bind m (fun x => k)) (at level 61, m at next level, right associativity).
Notation "m ;; k" := (bind m (fun _ => k)) (at level 61, right associativity).
(* something that depends on the input *)
Definition ask : M nat := fun o s => Some (o (st_pos s), mkState (S (st_pos s)) (st_held s) (st_next s)).
Fixpoint lookup (i : nat) (h : held) : option kind :=
  match h with [] => None | (j, k) :: r => if i =? j then Some k else lookup i r end.
Fixpoint drop (i : nat) (h : held) : held :=
  match h with [] => [] | (j, k) :: r => if i =? j then r else (j, k) :: drop i r end.
Definition fresh (k : kind) : M nat := fun _ s => Some (st_next s, mkState (st_pos s) ((st_next s, k) :: st_held s) (S (st_next s))).
Definition release (k : kind) (i : nat) : M unit := fun _ s =>
  match lookup i (st_held s) with
  | Some k' => if kind_eqb k k' then Some (tt, mkState (st_pos s) (drop i (st_held s)) (st_next s)) else None
  | None => None
  end.
(* *p *)
Definition use (p : ptr) : M unit := fun _ s =>
  match p with Some i => match lookup i (st_held s) with Some _ => Some (tt, s) | None => None end | None => None end.
(* acquiring may fail *)
Definition acquire (k : kind) : M ptr := n <- ask ;; if n =? 0 then ret None else (i <- fresh k ;; ret (Some i)).
Definition close (k : kind) (p : ptr) : M unit := match p with Some i => release k i | None => fun _ _ => None end.
(* a step that may fail: [ok] goes on, [bad] is the error exit *)
Definition step {A} (ok : M A) (bad : nat -> M A) : M A := n <- ask ;; if n =? 0 then ok else bad n.
Fixpoint steps {A} (n : nat) (ok : M A) (bad : nat -> M A) : M A := match n with 0 => ok | S k => step (steps k ok bad) bad end.
Fixpoint times (n : nat) (body : M nat) : M nat :=   (* until an error *)
  match n with 0 => ret 0 | S k => rc <- body ;; if rc =? 0 then times k body else ret rc end.

(* the program and its environment *)
Record setup := mkSetup {
  se_user : bool;      (* bpak_set_calloc_free has been called *)
  se_oom : bool;       (* memory may run out *)
  se_mbed3 : bool }.   (* MBEDTLS_VERSION_MAJOR >= 3 *)
Inductive compression := CNone | CHs | CLzma.

Section Calls.
Variable c : setup.
Definition fail : nat := 1.      (* an error code *)

(* ---- lib/mem.c:24-50; libc's own ---- *)
Definition alloc (user : bool) : M ptr := if se_oom c then acquire (KMem user) else (i <- fresh (KMem user) ;; ret (Some i)).
Definition release_mem (user : bool) (p : ptr) : M unit := match p with Some i => release (KMem user) i | None => ret tt end.
Definition bpak_calloc : M ptr := alloc (se_user c).
Definition bpak_free (p : ptr) : M unit := release_mem (se_user c) p.
Definition malloc : M ptr := alloc false.
Definition free (p : ptr) : M unit := release_mem false p.

(* ---- lib/mbedtls_wrapper.c ---- *)
(* :276-327; the result of calloc is not checked; on success the context is
   not released *)
Definition load_public_key : M (nat * ptr) :=
  x <- fresh KPk ;;
  ask ;;                                                   (* mbedtls_pk_parse_public_keyfile *)
  step (key <- bpak_calloc ;; use key ;;                   (* key->size = len *)
        step (use key ;; ret (0, key))                     (* key->kind, memcpy, output *)
             (fun n => bpak_free key ;; release KPk x ;; ret (n, None)))
       (fun n => release KPk x ;; ret (n, None)).
(* :329-431; entropy and ctr_drbg are never released *)
Definition load_private_key : M (nat * ptr) :=
  x <- fresh KPk ;;
  let out := fun n => release KPk x ;; ret (n, None) in
  let rest :=
    ask ;;                                                 (* mbedtls_pk_parse_keyfile *)
    step (key <- bpak_calloc ;;
          match key with
          | None => out fail
          | _ => use key ;; step (use key ;; release KPk x ;; ret (0, key)) (fun n => bpak_free key ;; out n)
          end) out in
  if se_mbed3 c then fresh KEnt ;; fresh KRng ;; step rest out else rest.
(* :433-502 *)
Definition parse_public_key : M (nat * ptr) :=
  x <- fresh KPk ;;
  let out := fun n => release KPk x ;; ret (n, None) in
  steps 3                                                  (* parse, kind, write_pubkey_der *)
    (key <- bpak_calloc ;;
     match key with
     | None => out fail
     | _ => use key ;; release KPk x ;; ret (0, key)
     end) out.

(* ---- lib/pkg.c ---- *)
(* :25-91; pkg->fp keeps its value after the error exit *)
Definition pkg_open : M (nat * ptr) :=
  fp <- acquire KFile ;;
  match fp with
  | None => ret (fail, None)
  | _ =>
      let out := fun n => close KFile fp ;; ret (n, fp) in
      step (full <- ask ;;
            let rest := steps 2 (ret (0, fp)) out in        (* valid_header, fseek *)
            if full =? 0 then rest else steps 4 rest out)   (* init_header, update_hash, fwrite, fseek *)
           out
  end.
(* :93-100 *)
Definition pkg_close (fp : ptr) : M unit := match fp with Some _ => close KFile fp | None => ret tt end.
(* any call that only reads or writes the open file: bpak_pkg_update_hash,
   write_header, write_raw_signature, delete_part, delete_all_parts, verify,
   part_sha256, ... *)
Definition file_op (fp : ptr) : M nat := use fp ;; ask.
(* :411-480 *)
Definition extract_file (fp : ptr) (stdout : bool) : M nat :=
  use fp ;;
  steps 2                                                   (* get_part, fseek *)
    (if stdout then ask else
     (out <- acquire KFile ;;
      match out with None => ret fail | _ => rc <- ask ;; close KFile out ;; ret rc end))
    (fun n => ret n).

(* ---- lib/pkg_create.c ---- *)
(* :200-291 *)
Definition add_file (fp : ptr) : M nat :=
  use fp ;;
  steps 3                                                   (* stat, add_part, fseek *)
    (inp <- acquire KFile ;;
     match inp with
     | None => ret fail
     | _ => let out := fun n => close KFile inp ;; ret n in
            steps 4 (out 0) out                             (* copy, padding, update_hash, write_header *)
     end) (fun n => ret n).
(* :39-196; the result of calloc is not checked *)
Definition add_file_with_merkle_tree (fp : ptr) : M nat :=
  step (rc <- add_file fp ;;
        if rc =? 0 then
          step (buf <- bpak_calloc ;;                       (* merkle_compute_size *)
                use buf ;;                                  (* memset *)
                ask ;;                                      (* merkle_init *)
                inp <- acquire KFile ;;
                match inp with
                | None => bpak_free buf ;; ret fail
                | _ => let out := fun n => close KFile inp ;; bpak_free buf ;; ret n in
                       steps 4 (use buf ;; steps 5 (out 0) out) out
                       (* chunks, finish, salt, root hash; add_part, fseek, fwrite, update_hash, write_header *)
                end) (fun n => ret n)
        else ret rc) (fun n => ret n).
(* :293-365; the key is released with free *)
Definition add_key (fp : ptr) : M nat :=
  x <- load_public_key ;;
  let (rc, key) := x in
  if rc =? 0 then
    let out := fun n => free key ;; ret n in
    step (use key ;; use fp ;; steps 5 (out 0) out) out     (* add_part; fseek, fwrite, padding, update_hash, write_header *)
  else ret rc.

(* ---- lib/pkg_sign.c:20-63 ---- *)
Definition pkg_sign (fp : ptr) : M nat :=
  use fp ;;
  step (x <- load_private_key ;;
        let (rc, key) := x in
        if rc =? 0 then
          let out := fun n => bpak_free key ;; ret n in
          use key ;; steps 2 (out 0) out                    (* crypto_sign, write_header *)
        else ret rc) (fun n => ret n).

(* ---- lib/keystore_load_from_file.c:18-84 ---- *)
Definition keystore_load_key : M (nat * ptr) :=
  x <- pkg_open ;;
  let (rc, fp) := x in
  if rc =? 0 then
    let out := fun n => pkg_close fp ;; ret (n, None) in
    steps 6 (y <- parse_public_key ;;     (* check_header, get_meta, the id, get_part, fseek, fread *)
             let (rc, key) := y in
             if rc =? 0 then use key ;; pkg_close fp ;; ret (0, key) else out rc) out
  else ret (rc, None).

(* ---- lib/bsdiff.c ---- *)
(* :329-377: result, compressor_priv, and what liblzma holds in the stream: it
   is allocated before the allocator of the stream is set *)
Definition compressor_init (k : compression) : M (nat * ptr * ptr) :=
  match k with
  | CNone => ret (0, None, None)
  | CHs => p <- bpak_calloc ;; match p with None => ret (fail, None, None) | _ => ret (0, p, None) end
  | CLzma =>
      stream <- bpak_calloc ;;
      step (match stream with
            | None => ret (fail, None, None)                (* LZMA_PROG_ERROR *)
            | _ => step (i <- fresh (KMem false) ;; ret (0, stream, Some i)) (fun n => ret (n, stream, None))
            end)
           (fun n => bpak_free stream ;; ret (n, stream, None))
  end.
(* :437-455; lzma_end(NULL) does nothing *)
Definition compressor_free (k : compression) (priv inner : ptr) : M unit :=
  match k with
  | CNone => ret tt
  | CHs => bpak_free priv
  | CLzma => match priv with None => ret tt | _ => use priv ;; bpak_free inner end ;; bpak_free priv
  end.
(* :599-657: result, compressor_priv, its inner block, suffix_array *)
Definition bsdiff_init (k : compression) : M (nat * (ptr * ptr * ptr)) :=
  x <- compressor_init k ;;
  let '(rc, priv, inner) := x in
  if rc =? 0 then
    sa <- bpak_calloc ;;
    match sa with
    | None => compressor_free k priv inner ;; ret (fail, (None, None, None))
    | _ => use sa ;; step (ret (0, (priv, inner, sa)))
                          (fun n => bpak_free sa ;; compressor_free k priv inner ;; ret (n, (None, None, None)))
    end
  else ret (rc, (priv, inner, None)).
(* :659-716 *)
Definition bsdiff (k : compression) (x : ptr * ptr * ptr) : M nat :=
  let '(priv, inner, sa) := x in
  use sa ;; match k with CNone => ask | CHs => use priv ;; ask | CLzma => use priv ;; use inner ;; ask end.
(* :718-727 *)
Definition bsdiff_free (k : compression) (x : ptr * ptr * ptr) : M unit :=
  let '(priv, inner, sa) := x in bpak_free sa ;; compressor_free k priv inner.

(* ---- lib/transport_encode.c ---- *)
(* :113-215 *)
Definition transport_bsdiff (k : compression) : M nat :=
  steps 2 (target <- acquire KMap ;;
    match target with
    | None => ret fail
    | _ =>
        let out1 := fun n => close KMap target ;; ret n in
        steps 2 (origin <- acquire KMap ;;
          match origin with
          | None => out1 fail
          | _ =>
              let out2 := fun n => close KMap origin ;; out1 n in
              x <- bsdiff_init k ;;
              let (rc, ctx) := x in
              if rc =? 0 then use target ;; use origin ;; rc <- bsdiff k ctx ;; bsdiff_free k ctx ;; out2 rc
              else out2 rc
          end) out1
    end) (fun n => ret n).
(* :217-451: a part is copied, left out, or patched with one of the
   compressions the encoder ids select; [ks]: those in use in the package *)
Definition transport_part (ks : list compression) : M nat :=
  which <- ask ;; match nth_error ks which with None => ask | Some k => steps 6 (transport_bsdiff k) (fun n => ret n) end.
Definition transport_encode (ks : list compression) (fpi fpo fpr : ptr) : M nat :=
  use fpi ;; use fpo ;; match fpr with None => ret tt | _ => use fpr end ;;
  steps 3 (n <- ask ;; rc <- times n (transport_part ks) ;; if rc =? 0 then ask else ret rc) (fun n => ret n).

(* ---- lib/bspatch.c:211-256, lib/transport_decode.c, lib/pkg.c:259-389 ---- *)
Definition decompressor_init (k : compression) : M (nat * ptr) :=
  match k with CLzma => step (i <- fresh (KMem false) ;; ret (0, Some i)) (fun n => ret (n, None)) | _ => ret (0, None) end.
(* one part: start, write_chunk..., finish.  bpak_transport_decode_free does
   nothing: what a patch holds is released in finish only *)
Definition decode_part (ks : list compression) : M nat :=
  steps 2                                                   (* get_part of the origin; write header *)
    (which <- ask ;;
     match nth_error ks which with
     | None => ask                                          (* copied, or a hash tree *)
     | Some k =>
         x <- decompressor_init k ;;
         let (rc, inner) := x in
         if rc =? 0 then
           steps 2                                          (* fread, write_chunk *)
             (rc <- ask ;; bpak_free inner ;; if rc =? 0 then ask else ret rc)      (* final; size, header *)
             (fun n => ret n)
         else ret rc
     end) (fun n => ret n).
Definition transport_decode (ks : list compression) (fpi fpo fpr : ptr) : M nat :=
  use fpi ;; use fpo ;; match fpr with None => ret tt | _ => use fpr end ;;
  steps 3 (n <- ask ;; times n (decode_part ks)) (fun n => ret n).

(* ---- src/*.c: the actions once the command line has been read; [fp]: the
   package, opened.  An action returns at once if it cannot be opened ---- *)
Definition with_pkg (body : ptr -> M nat) : M nat :=
  x <- pkg_open ;;
  let (rc, fp) := x in
  if rc =? 0 then rc <- body fp ;; pkg_close fp ;; ret rc else ret rc.
(* src/create.c:125-153, src/delete.c:88-105, src/show.c:104-302 (:115: not
   reached, the header has been checked) *)
Definition act_simple : M nat := with_pkg file_op.
(* src/sign.c:77-116 *)
Definition act_sign (raw : bool) : M nat :=
  with_pkg (fun fp =>
    if raw then sig <- acquire KFile ;; match sig with None => ret fail | _ => use sig ;; close KFile sig ;; file_op fp end
    else pkg_sign fp).
(* src/sign.c:174-218 *)
Inductive key_source := KeyFile | KeyStore | NoKey.
Definition act_verify (k : key_source) : M nat :=
  with_pkg (fun fp =>
    let go := fun x : nat * ptr => let (rc, key) := x in
      if rc =? 0 then use key ;; rc <- file_op fp ;; free key ;; ret rc else ret rc in
    match k with
    | KeyFile => x <- load_public_key ;; go x
    | KeyStore => x <- keystore_load_key ;; go x
    | NoKey => ret fail
    end).
(* src/add.c:125-307 *)
Inductive add_what := AddFile | AddMerkle | AddKey | AddMetaText | AddMetaFile.
Definition act_add (w : add_what) : M nat :=
  with_pkg (fun fp =>
    match w with
    | AddFile => add_file fp
    | AddMerkle => add_file_with_merkle_tree fp
    | AddKey => add_key fp
    | AddMetaText => file_op fp
    | AddMetaFile => f <- acquire KFile ;; match f with None => ret fail | _ => use f ;; close KFile f ;; file_op fp end
    end).
(* src/extract.c:98-157: [meta], [part]: given; [file]: --output given *)
Definition act_extract (meta part file : bool) : M nat :=
  with_pkg (fun fp =>
    let part_of := if part then extract_file fp (negb file) else ret 0 in
    if meta then
      step (if file then
              out <- acquire KFile ;;
              match out with
              | None => ret fail
              | _ => step (rc <- part_of ;; close KFile out ;; ret rc) (fun n => close KFile out ;; ret n)
              end
            else step part_of (fun n => ret n)) (fun n => ret n)
    else part_of).
(* src/set.c:110-268; the results of malloc are not checked; [grow]: the entry
   is removed and added again in a second header.  Left out: bpak_get_meta
   failing on a copy of a header on which it has succeeded *)
Definition act_set (grow : bool) : M nat :=
  h <- malloc ;;
  fp <- acquire KFile ;;
  match fp with
  | None => free h ;; ret fail
  | _ =>
      let out := fun h n => close KFile fp ;; free h ;; ret n in
      step (use h ;;
            steps 3                                         (* fread, valid_header, get_meta *)
              (if grow then
                 tmp <- malloc ;; use tmp ;; use h ;;
                 step (free h ;; use tmp ;; steps 2 (out tmp 0) (out tmp)) (fun n => free tmp ;; out h n)
               else use h ;; steps 3 (out h 0) (out h)) (out h)) (out h)
  end.
(* src/compare.c:74-354 *)
Definition act_compare : M nat :=
  f1 <- acquire KFile ;;
  match f1 with
  | None => ret fail
  | _ => f2 <- acquire KFile ;;
         match f2 with
         | None => close KFile f1 ;; ret fail
         | _ => use f1 ;; use f2 ;; rc <- ask ;; close KFile f2 ;; close KFile f1 ;; ret rc
         end
  end.
(* src/generate.c:97-276: the keystore generator.  *)
Definition generate_key : M nat :=
  steps 3                                                   (* fseek, size, fread *)
    (x <- parse_public_key ;;
     let (rc, key) := x in
     if rc =? 0 then use key ;; step (use key ;; free key ;; ret 0) (fun n => free key ;; ret n) else ret rc)
    (fun n => ret n).
Definition act_generate : M nat :=
  h <- malloc ;;
  match h with
  | None => ret fail
  | _ =>
      fp <- acquire KFile ;;
      match fp with
      | None => free h ;; ret fail
      | _ =>
          let out := fun n => close KFile fp ;; free h ;; ret n in
          use h ;;
          steps 4                                           (* fread, valid_header, the two metadata entries *)
            (name <- malloc ;;                              (* strdup, not checked *)
             use name ;; n <- ask ;; rc <- times n generate_key ;; free name ;; out rc) out
      end
  end.
(* src/transport.c:108-187: [origin]: --origin given.  The output is never
   closed, and the input stays open if the origin cannot be opened.  Left out:
   without --origin an uninitialised package is read (C75) *)
Inductive transport_what := TrAdd | TrEncode | TrDecode.
Definition act_transport (ks : list compression) (w : transport_what) (origin : bool) : M nat :=
  x <- pkg_open ;;
  let (rc, fpi) := x in
  if rc =? 0 then
    y <- (if origin then pkg_open else ret (0, None)) ;;
    let (rc, fpr) := y in
    if rc =? 0 then
      let out := fun n => pkg_close fpi ;; (if origin then pkg_close fpr else ret tt) ;; ret n in
      match w with
      | TrAdd => rc <- file_op fpi ;; out rc
      | _ =>
          z <- pkg_open ;;
          let (rc, fpo) := z in
          if rc =? 0 then
            rc <- (match w with TrEncode => transport_encode ks fpi fpo fpr | _ => transport_decode ks fpi fpo fpr end) ;; out rc
          else out rc
      end
    else ret rc
  else ret rc.
End Calls.
