(* MbedSpec.v -- public keys and their DER encoding (SubjectPublicKeyInfo, RFC
   5280, RFC 5480, RFC 8017) *)
From Coq Require Import String.
From Verif Require Import Base HeaderModel CrcModel MbedModel.
Local Open Scope Z_scope.
Local Open Scope list_scope.

Inductive curve := P256 | P384 | P521.
Definition curve_bits (c : curve) : Z := match c with P256 => 256 | P384 => 384 | P521 => 521 end.
Definition coord_len (c : curve) : Z := (curve_bits c + 7) / 8.
Inductive pubkey :=
| EcKey (c : curve) (x y : bytes)         (* coordinates, big endian *)
| RsaKey (n e : Z).
Definition key_ok (k : pubkey) : Prop :=
  match k with
  | EcKey c x y => zlen x = coord_len c /\ zlen y = coord_len c
  | RsaKey n e => 0 < n /\ 0 < e
  end.
Definition key_name (k : pubkey) : bytes := match k with EcKey _ _ _ => bytes_of "EC" | RsaKey _ _ => bytes_of "RSA" end.
Definition key_bits (k : pubkey) : Z := match k with EcKey c _ _ => curve_bits c | RsaKey n _ => Z.log2 n + 1 end.

(* DER *)
Fixpoint be (n : nat) (v : Z) : bytes := match n with O => [] | S m => be m (v / 256) ++ [v mod 256] end.
Definition der_length (l : Z) : bytes :=
  if l <? 128 then [l] else if l <? 256 then [129; l] else [130; l / 256; l mod 256].
Definition tlv (tag : Z) (c : bytes) : bytes := tag :: der_length (zlen c) ++ c.
(* a positive INTEGER: one bit more than the number has, for the sign *)
Definition der_int (v : Z) : bytes := tlv 2 (be (Z.to_nat ((Z.log2 v + 1) / 8 + 1)) v).
Definition oid_rsa : bytes := tlv 6 [42; 134; 72; 134; 247; 13; 1; 1; 1].
Definition oid_ec : bytes := tlv 6 [42; 134; 72; 206; 61; 2; 1].
Definition oid_curve (c : curve) : bytes :=
  tlv 6 match c with
        | P256 => [42; 134; 72; 206; 61; 3; 1; 7]
        | P384 => [43; 129; 4; 0; 34]
        | P521 => [43; 129; 4; 0; 35]
        end.
Definition spki (k : pubkey) : bytes :=
  match k with
  | EcKey c x y => tlv 48 (tlv 48 (oid_ec ++ oid_curve c) ++ tlv 3 (0 :: 4 :: x ++ y))
  | RsaKey n e => tlv 48 (tlv 48 (oid_rsa ++ tlv 5 []) ++ tlv 3 (0 :: tlv 48 (der_int n ++ der_int e)))
  end.
(* mbedTLS understands the encoding of the key, and encodes it the same way *)
Definition reads (parse : bytes -> option pkctx) (k : pubkey) : Prop := parse (spki k) = Some (mkPk (key_name k) (key_bits k) (spki k)).
Definition ctx_of (k : pubkey) : pkctx := mkPk (key_name k) (key_bits k) (spki k).
(* the keys bpak has a kind for (RSA: public exponents below 2^64) *)
Definition supported (k : pubkey) : Prop :=
  match k with EcKey _ _ _ => True | RsaKey n e => key_bits k = 4096 /\ e < 2 ^ 64 end.
Definition kind_of (k : pubkey) : Z :=
  match k with EcKey P256 _ _ => KEY_PUB_PRIME256 | EcKey P384 _ _ => KEY_PUB_SECP384 | EcKey P521 _ _ => KEY_PUB_SECP521 | RsaKey _ _ => KEY_PUB_RSA4096 end.
