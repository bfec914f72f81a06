(* CrcSpec.v -- the bit-serial reflected CRC-32 register (polynomial
   0xEDB88320), the textbook definition bpak_id is meant to compute *)
From Verif Require Import Base.

Definition POLY : Z := 3988292384.   (* 0xEDB88320 *)
(* shift one bit out; if it was 1 subtract the polynomial *)
Definition shift1 (r : Z) : Z := if Z.odd r then Z.lxor (r / 2) POLY else r / 2.
Fixpoint shift_n (n : nat) (r : Z) : Z := match n with O => r | S k => shift_n k (shift1 r) end.
(* feed one message byte, least significant bit first *)
Definition feed (r b : Z) : Z := shift_n 8 (Z.lxor r b).
Definition crc_spec (init : Z) (msg : bytes) : Z := fold_left feed msg init.
