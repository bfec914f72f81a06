(* MbedProofs.v *)
From Coq Require Import Lia String.
From Verif Require Import Base BaseLemmas HeaderModel CrcModel KeystoreModel MbedModel MbedSpec.
Local Open Scope Z_scope.
Local Open Scope list_scope.

Lemma be_len n : forall v, zlen (be n v) = Z.of_nat n.
Proof. induction n; intros v; cbn [be]; [reflexivity|]. rewrite zlen_app, IHn. change (zlen [v mod 256]) with 1. lia. Qed.
Lemma der_length_len l : zlen (der_length l) = if l <? 128 then 1 else if l <? 256 then 2 else 3.
Proof. unfold der_length. destruct (l <? 128); [reflexivity|]. destruct (l <? 256); reflexivity. Qed.
Lemma tlv_len t c : zlen (tlv t c) = 1 + (if zlen c <? 128 then 1 else if zlen c <? 256 then 2 else 3) + zlen c.
Proof. unfold tlv. rewrite zlen_cons, zlen_app, der_length_len. lia. Qed.
Lemma ec_len c x y : key_ok (EcKey c x y) -> zlen (spki (EcKey c x y)) = match c with P256 => 91 | P384 => 120 | P521 => 158 end.
Proof.
  cbn [key_ok]. intros [X Y]. unfold spki. rewrite !tlv_len, !zlen_app, !tlv_len, !zlen_cons, !zlen_app, X, Y.
  destruct c; cbn; reflexivity.
Qed.
Lemma rsa_len n e : Z.log2 n = 4095 -> 0 < e < 2 ^ 64 -> 548 <= zlen (spki (RsaKey n e)) <= 556.
Proof.
  intros N E. assert (L : 1 <= (Z.log2 e + 1) / 8 + 1 <= 9).
  { assert (Z.log2 e < 64) by (apply Z.log2_lt_pow2; lia). pose proof (Z.log2_nonneg e). lia. }
  assert (L1 : zlen (der_int n) = 517).
  { unfold der_int. rewrite N. rewrite tlv_len, be_len. reflexivity. }
  assert (L2 : 3 <= zlen (der_int e) <= 11).
  { unfold der_int. rewrite tlv_len, be_len, Z2Nat.id by lia. destruct (Z.ltb_spec ((Z.log2 e + 1) / 8 + 1) 128); lia. }
  unfold spki. rewrite tlv_len, zlen_app. change (zlen (tlv 48 (oid_rsa ++ tlv 5 []))) with 15.
  assert (L3 : zlen (tlv 48 (der_int n ++ der_int e)) = 4 + 517 + zlen (der_int e)).
  { rewrite tlv_len, zlen_app, L1. destruct (Z.ltb_spec (517 + zlen (der_int e)) 128); [lia|]. destruct (Z.ltb_spec (517 + zlen (der_int e)) 256); lia. }
  assert (L4 : zlen (tlv 3 (0 :: tlv 48 (der_int n ++ der_int e))) = 4 + 1 + 4 + 517 + zlen (der_int e)).
  { rewrite tlv_len, zlen_cons, L3. destruct (Z.ltb_spec (1 + (4 + 517 + zlen (der_int e))) 128); [lia|].
    destruct (Z.ltb_spec (1 + (4 + 517 + zlen (der_int e))) 256); lia. }
  rewrite L4. destruct (Z.ltb_spec (15 + (4 + 1 + 4 + 517 + zlen (der_int e))) 128); [lia|].
  destruct (Z.ltb_spec (15 + (4 + 1 + 4 + 517 + zlen (der_int e))) 256); lia.
Qed.
Lemma kind_supported k d e : supported k -> MbedModel.key_kind (ctx_of k) d e = Ok (d + kind_of k).
Proof.
  destruct k as [c x y|n x]; intros S.
  - destruct c; reflexivity.
  - cbn [supported] in S. unfold key_kind, ctx_of. cbn [pk_name pk_bits]. rewrite (proj1 S). reflexivity.
Qed.
Lemma kind_rsa n x d e : key_bits (RsaKey n x) <> 4096 -> MbedModel.key_kind (ctx_of (RsaKey n x)) d e = Err e.
Proof. intros S. unfold key_kind, ctx_of. cbn [pk_name pk_bits]. apply Z.eqb_neq in S. rewrite S. reflexivity. Qed.
Lemma supported_len k : key_ok k -> supported k -> zlen (spki k) <= 556 /\
  match k with EcKey _ _ _ => zlen (spki k) <= 158 | RsaKey _ _ => 548 <= zlen (spki k) end.
Proof.
  destruct k as [c x y|n x]; intros O S.
  - rewrite (ec_len _ _ _ O). destruct c; lia.
  - cbn [supported key_bits key_ok] in *. pose proof (rsa_len n x ltac:(lia) ltac:(lia)). lia.
Qed.
Lemma load_public_ok parse file k : key_ok k -> supported k -> parse file = Some (ctx_of k) -> mbed_load_public_key parse file = Ok (mkKey (kind_of k) 0 (spki k)).
Proof.
  intros O S P. unfold mbed_load_public_key. rewrite P. unfold write_der. cbn [ctx_of pk_der]. pose proof (supported_len k O S) as [L _].
  destruct (Z.leb_spec (zlen (spki k)) 1024); [|lia]. rewrite kind_supported by exact S. reflexivity.
Qed.
Lemma parse_ec parse c x y : key_ok (EcKey c x y) -> reads parse (EcKey c x y) ->
  mbed_parse_public_key parse (spki (EcKey c x y)) = Ok (mkKey (kind_of (EcKey c x y)) 0 (spki (EcKey c x y))).
Proof.
  intros O R. unfold mbed_parse_public_key. rewrite R. change (mkPk _ _ _) with (ctx_of (EcKey c x y)). rewrite kind_supported by exact I. cbn [bind].
  unfold write_der. cbn [ctx_of pk_der]. pose proof (supported_len (EcKey c x y) O I) as [_ L].
  destruct (Z.leb_spec (zlen (spki (EcKey c x y))) 512); [|lia]. reflexivity.
Qed.
Lemma parse_rsa parse n e : key_ok (RsaKey n e) -> reads parse (RsaKey n e) -> e < 2 ^ 64 -> mbed_parse_public_key parse (spki (RsaKey n e)) = Err E_KEY_DECODE.
Proof.
  intros O R E. unfold mbed_parse_public_key. rewrite R. change (mkPk _ _ _) with (ctx_of (RsaKey n e)).
  destruct (Z.eq_dec (key_bits (RsaKey n e)) 4096) as [B|B]; [|rewrite kind_rsa by exact B; reflexivity].
  rewrite kind_supported by (split; assumption). cbn [bind].
  unfold write_der. cbn [ctx_of pk_der]. pose proof (supported_len (RsaKey n e) O (conj B E)) as [_ L].
  destruct (Z.leb_spec (zlen (spki (RsaKey n e))) 512); [lia|]. reflexivity.
Qed.
