(* MerkleVerifySpec.v -- when a stored tree vouches for some data *)
From Verif Require Import Base HashModel MerkleSpec.

(* [chain d ts]: every stored level (bottom first) starts with the hashes of
   the blocks of what is stored below it.  Bytes after those hashes are free
   here; they are covered by the hash of the level above or by the root. *)
Inductive chain (sha : hashfn) (salt : bytes) : bytes -> list bytes -> Prop :=
| ch_nil d : chain sha salt d []
| ch_cons d t ts :
    ztake (32 * (zlen d / 4096)) t = block_hashes sha salt (Z.to_nat (zlen d / 4096)) d ->
    chain sha salt t ts -> chain sha salt d (t :: ts).

(* two different messages with the same SHA-256 digest *)
Definition sha256_collision (sha : hashfn) : Prop := exists a b, a <> b /\ sha 1 a = sha 1 b.
