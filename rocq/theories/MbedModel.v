(* MbedModel.v -- key handling of lib/mbedtls_wrapper.c.  Definitions only.
   mbedTLS is represented by what a parsed key context answers. *)
From Coq Require Import String.
From Verif Require Import Base HeaderModel CrcModel KeystoreModel.
Local Open Scope Z_scope.

(* what mbedtls_pk_get_name, mbedtls_pk_get_bitlen and
   mbedtls_pk_write_pubkey_der / write_key_der say about a parsed context *)
Record pkctx := mkPk { pk_name : bytes; pk_bits : Z; pk_der : bytes }.
(* include/bpak/bpak.h:142-152 *)
Definition KEY_PUB_RSA4096 : Z := 1.
Definition KEY_PUB_PRIME256 : Z := 2.
Definition KEY_PUB_SECP384 : Z := 3.
Definition KEY_PUB_SECP521 : Z := 4.
(* mbedtls_pk_write_*_der into a buffer of [n] bytes: negative if it does not
   fit, else the length, and the bytes are at the end of the buffer *)
Definition write_der (c : pkctx) (n : Z) : option bytes := if zlen (pk_der c) <=? n then Some (pk_der c) else None.
(* lib/mbedtls_wrapper.c:294-318 = 379-414 = 450-475 up to the error code [e]
   and the offset [d] of the kinds (private keys: 4) *)
Definition key_kind (c : pkctx) (d e : Z) : res Z :=
  if bytes_eqb (pk_name c) (bytes_of "EC") then
    if pk_bits c =? 256 then Ok (d + KEY_PUB_PRIME256)
    else if pk_bits c =? 384 then Ok (d + KEY_PUB_SECP384)
    else if pk_bits c =? 521 then Ok (d + KEY_PUB_SECP521)
    else Err e
  else if bytes_eqb (pk_name c) (bytes_of "RSA") then
    if pk_bits c =? 4096 then Ok (d + KEY_PUB_RSA4096) else Err e
  else Err e.
(* :276-327; [parse]: mbedtls_pk_parse_public_keyfile on the contents of the
   file; its result is not looked at: a context that was not filled cannot be
   written.  calloc failures are not modelled *)
Definition mbed_load_public_key (parse : bytes -> option pkctx) (file : bytes) : res key :=
  match parse file with
  | None => Err E_KEY_DECODE
  | Some c =>
      match write_der c 1024 with
      | None => Err E_KEY_DECODE
      | Some d => do k <- key_kind c 0 E_UNSUPPORTED_KEY; Ok (mkKey k 0 d)
      end
  end.
(* :329-431 *)
Definition mbed_load_private_key (parse : bytes -> option pkctx) (file : bytes) : res key :=
  match parse file with
  | None => Err E_KEY_DECODE
  | Some c =>
      match write_der c 4096 with
      | None => Err E_KEY_DECODE
      | Some d => do k <- key_kind c 4 E_KEY_DECODE; Ok (mkKey k 0 d)
      end
  end.
(* :433-502; [parse]: mbedtls_pk_parse_public_key *)
Definition mbed_parse_public_key (parse : bytes -> option pkctx) (buf : bytes) : res key :=
  match parse buf with
  | None => Err E_KEY_DECODE
  | Some c =>
      do k <- key_kind c 0 E_KEY_DECODE;
      match write_der c 512 with
      | None => Err E_KEY_DECODE
      | Some d => Ok (mkKey k 0 d)
      end
  end.
