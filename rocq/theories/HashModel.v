(* HashModel.v -- the streaming hash interface of lib/crypto.c:31-62 backed by
   lib/mbedtls_wrapper.c:14-140.  mbedtls itself is not modelled: a hash
   function is a parameter [sha kind message] and a context is the kind plus
   the bytes fed so far.  Definitions only. *)
From Verif Require Import Base HeaderModel.

Definition hashfn := Z -> bytes -> bytes.
(* digest sizes, lib/mbedtls_wrapper.c:80,94,108 *)
Definition digest_len (kind : Z) : Z :=
  if kind =? HASH_SHA256 then 32 else if kind =? HASH_SHA384 then 48
  else if kind =? HASH_SHA512 then 64 else 0.
Definition hash_supported (kind : Z) : bool :=
  (kind =? HASH_SHA256) || (kind =? HASH_SHA384) || (kind =? HASH_SHA512).
(* what is assumed of mbedtls: digests have the right size and are bytes *)
Definition good_hash (sha : hashfn) : Prop :=
  forall k m, hash_supported k = true -> zlen (sha k m) = digest_len k /\ bytes_ok (sha k m).

Definition hctx : Type := (Z * bytes)%type.
(* lib/mbedtls_wrapper.c:14-46 through lib/crypto.c:31-39 *)
Definition hash_init (kind : Z) : res hctx :=
  if hash_supported kind then Ok (kind, []) else Err E_UNSUPPORTED_HASH_ALG.
(* lib/mbedtls_wrapper.c:48-72: never fails *)
Definition hash_update (c : hctx) (d : bytes) : hctx := (fst c, snd c ++ d).
(* lib/mbedtls_wrapper.c:74-125; [room] is buffer_length *)
Definition hash_final (sha : hashfn) (c : hctx) (room : Z) : res bytes :=
  if negb (hash_supported (fst c)) then Err E_UNSUPPORTED_HASH_ALG
  else if room <? digest_len (fst c) then Err E_SIZE_ERROR
  else Ok (sha (fst c) (snd c)).
