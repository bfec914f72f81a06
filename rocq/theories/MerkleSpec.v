(* MerkleSpec.v -- what a bpak hash tree is, independently of lib/merkle.c *)
From Verif Require Import Base HashModel.

(* ---- sizes: [c] children, 128 digests per 4096-byte block ---- *)
Definition zsum (l : list Z) : Z := fold_right Z.add 0 l.
Definition ceil128 (c : Z) : Z := (c + 127) / 128.
(* blocks per level, bottom level first *)
Inductive tree_blocks : Z -> list Z -> Prop :=
| tb_top c : 0 < c <= 128 -> tree_blocks c [1]
| tb_more c l : 128 < c -> tree_blocks (ceil128 c) l -> tree_blocks c (ceil128 c :: l).

(* ---- contents ---- *)
(* salted SHA-256 (kind 1) of each of the first [k] 4096-byte blocks of [d] *)
Fixpoint block_hashes (sha : hashfn) (salt : bytes) (k : nat) (d : bytes) : bytes :=
  match k with
  | O => []
  | S k => sha 1 (salt ++ ztake 4096 d) ++ block_hashes sha salt k (zdrop 4096 d)
  end.
(* the level above [d]: its block hashes, zero padded to whole blocks *)
Definition level_above (sha : hashfn) (salt d : bytes) : bytes :=
  let h := block_hashes sha salt (Z.to_nat (zlen d / 4096)) d in
  h ++ zeros ((- zlen h) mod 4096).
(* all levels above [d], bottom first, up to the first one-block level *)
Inductive hash_levels (sha : hashfn) (salt : bytes) : bytes -> list bytes -> Prop :=
| hl_top d : zlen (level_above sha salt d) = 4096 ->
    hash_levels sha salt d [level_above sha salt d]
| hl_more d ls : 4096 < zlen (level_above sha salt d) ->
    hash_levels sha salt (level_above sha salt d) ls ->
    hash_levels sha salt d (level_above sha salt d :: ls).
(* stored top level first *)
Definition hash_tree (ls : list bytes) : bytes := concat (rev ls).
Definition root_hash (sha : hashfn) (salt d : bytes) (ls : list bytes) : bytes :=
  if zlen d =? 4096 then sha 1 (salt ++ d) else sha 1 (salt ++ last ls []).
