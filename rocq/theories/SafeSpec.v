(* SafeSpec.v -- what "verifying an untrusted package is safe" means *)
From Verif Require Import Base HeaderModel HeaderSpec HashModel VerifyModel.

(* the call comes back with an answer: a result or an error code, no
   out-of-bounds access and no endless loop *)
Definition answers {A} (r : res A) : Prop := (exists a, r = Ok a) \/ (exists e, r = Err e).
(* the call comes back or stops the program: no endless loop *)
Definition comes_back {A} (r : res A) : Prop := r <> Stuck.

(* a signature back end that answers for every input *)
Definition answering_scheme {K} (sg : sigscheme K) : Prop :=
  forall s d k key, answers (sg_verify sg s d k key).
(* a reader that answers every request *)
Definition answering_reader (rd : rdfn) : Prop := forall o n, answers (rd o n).

(* the 32 bytes of every hash tree root and salt lie inside the metadata block *)
Definition tree_values_inside (h : header) : Prop :=
  Forall (fun m => m_id m = ID_MERKLE_ROOT_HASH \/ m_id m = ID_MERKLE_SALT -> m_offset m + 32 <= 1920) (h_meta h).
(* the signature lies inside its field *)
Definition signature_inside (h : header) : Prop := h_signature_sz h <= 512.
