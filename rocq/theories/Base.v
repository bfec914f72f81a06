(* Base.v -- integer, byte-string, file and result vocabulary of the model.
   No proofs here.  Nothing in this file is specific to bpak except the error
   codes (include/bpak/bpak.h:94-126). *)
From Coq Require Export List ZArith Bool Lia.
Export ListNotations.
Open Scope Z_scope.

(* ---- C integers ------------------------------------------------------ *)
(* Values are Z; a conversion to an unsigned C type is an explicit modulus. *)
Definition u8  (x : Z) : Z := x mod 256.
Definition u16 (x : Z) : Z := x mod 65536.
Definition u32 (x : Z) : Z := x mod 4294967296.
Definition u64 (x : Z) : Z := x mod 18446744073709551616.
(* conversion to int64_t / off_t / ssize_t (two's complement, LP64) *)
Definition s64 (x : Z) : Z :=
  (x + 9223372036854775808) mod 18446744073709551616 - 9223372036854775808.

(* ---- byte strings ---------------------------------------------------- *)
Definition bytes := list Z.
Definition byte_ok (b : Z) : Prop := 0 <= b < 256.
Definition bytes_ok (l : bytes) : Prop := Forall byte_ok l.

Definition zlen {A} (l : list A) : Z := Z.of_nat (length l).
Definition ztake {A} (n : Z) (l : list A) : list A := firstn (Z.to_nat n) l.
Definition zdrop {A} (n : Z) (l : list A) : list A := skipn (Z.to_nat n) l.
(* [slice o n l]: at most [n] elements of [l] starting at offset [o] *)
Definition slice {A} (o n : Z) (l : list A) : list A := ztake n (zdrop o l).
Definition zeros (n : Z) : bytes := repeat 0 (Z.to_nat n).
Definition znth {A} (d : A) (i : Z) (l : list A) : A := nth (Z.to_nat i) l d.

(* overwrite [zlen d] bytes of [l] at offset [o] (caller checks bounds) *)
Definition splice {A} (o : Z) (d l : list A) : list A :=
  ztake o l ++ d ++ zdrop (o + zlen d) l.

(* little-endian integers: the model assumes a little-endian host, the packed
   structs of include/bpak/bpak.h are written to disk as they are in memory *)
Fixpoint le (n : nat) (v : Z) : bytes :=
  match n with
  | O => []
  | S k => v mod 256 :: le k (v / 256)
  end.
Fixpoint unle (l : bytes) : Z :=
  match l with
  | [] => 0
  | b :: r => b + 256 * unle r
  end.

Fixpoint list_upd {A} (i : nat) (x : A) (l : list A) : list A :=
  match l, i with
  | [], _ => []
  | _ :: r, O => x :: r
  | a :: r, S k => a :: list_upd k x r
  end.

Fixpoint bytes_eqb (a b : bytes) : bool :=
  match a, b with
  | [], [] => true
  | x :: r, y :: s => (x =? y) && bytes_eqb r s
  | _, _ => false
  end.

(* ---- files ----------------------------------------------------------- *)
(* A regular file is its byte content.  [fread_at] is fseek+fread (short read
   at end of file); [fwrite_at] is fseek+fwrite (POSIX: a gap reads as zero;
   fwrite of zero bytes does not extend the file). *)
Definition fread_at (f : bytes) (o n : Z) : bytes := slice o n f.
Definition fwrite_at (f : bytes) (o : Z) (d : bytes) : bytes :=
  if zlen d =? 0 then f
  else if o <=? zlen f then splice o d f
  else f ++ zeros (o - zlen f) ++ d.

(* ---- results --------------------------------------------------------- *)
(* [Err e]: the C function returned the negative code [e].
   [UB]: undefined behaviour (out-of-bounds access, NULL dereference, ...).
   [Stuck]: the C loop does not terminate (model fuel exhausted). *)
Inductive res (A : Type) : Type :=
| Ok (a : A)
| Err (e : Z)
| UB
| Stuck.
Arguments Ok {A} a.
Arguments Err {A} e.
Arguments UB {A}.
Arguments Stuck {A}.

Definition bind {A B} (x : res A) (f : A -> res B) : res B :=
  match x with
  | Ok a => f a
  | Err e => Err e
  | UB => UB
  | Stuck => Stuck
  end.
Notation "'do' p <- x ; y" := (bind x (fun p => y))
  (at level 200, p pattern, x at level 100, y at level 200).

(* error codes, include/bpak/bpak.h:94-126, as returned (negated) *)
Definition E_FAILED := -1.
Definition E_NOT_FOUND := -2.
Definition E_SIZE_ERROR := -3.
Definition E_NO_SPACE_LEFT := -4.
Definition E_BAD_ALIGNMENT := -5.
Definition E_SEEK_ERROR := -6.
Definition E_NOT_SUPPORTED := -7.
Definition E_NEEDS_MORE_DATA := -8.
Definition E_WRITE_ERROR := -9.
Definition E_DECOMPRESSOR_ERROR := -10.
Definition E_COMPRESSOR_ERROR := -11.
Definition E_PATCH_READ_ORIGIN_ERROR := -12.
Definition E_PATCH_WRITE_ERROR := -13.
Definition E_READ_ERROR := -14.
Definition E_BAD_MAGIC := -15.
Definition E_UNSUPPORTED_HASH_ALG := -16.
Definition E_BUFFER_TOO_SMALL := -17.
Definition E_FILE_NOT_FOUND := -18.
Definition E_KEY_DECODE := -19.
Definition E_VERIFY_FAIL := -20.
Definition E_SIGN_FAIL := -21.
Definition E_UNSUPPORTED_KEY := -22.
Definition E_BAD_ROOT_HASH := -23.
Definition E_BAD_PAYLOAD_HASH := -24.
Definition E_MISSING_META_DATA := -25.
Definition E_PACKAGE_UUID_MISMATCH := -26.
Definition E_UNSUPPORTED_COMPRESSION := -27.
Definition E_KEY_NOT_FOUND := -28.
Definition E_KEYSTORE_ID_MISMATCH := -29.
Definition E_EXISTS := -30.
