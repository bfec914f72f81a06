(* BspatchSpec.v -- what a patch means, independently of lib/bspatch.c and
   lib/bsdiff.c *)
From Verif Require Import Base.

(* sign and magnitude, 8 bytes, little endian, sign in the top bit *)
Definition enc_int (x : Z) : bytes :=
  le 7 (Z.abs x) ++ [Z.abs x / 2^56 + (if x <? 0 then 128 else 0)].

(* one patch record: bytes to add to the origin, bytes to insert, and how far
   to move in the origin afterwards *)
Record precord := mkRec { r_diff : bytes; r_extra : bytes; r_adj : Z }.
Definition enc_record (r : precord) : bytes :=
  enc_int (zlen (r_diff r)) ++ enc_int (zlen (r_extra r)) ++ enc_int (r_adj r) ++ r_diff r ++ r_extra r.
Definition enc_patch (rs : list precord) : bytes := concat (map enc_record rs).

Definition byte_sums (a b : bytes) : bytes := map (fun p => (fst p + snd p) mod 256) (combine a b).
(* the bytes produced from origin [o] starting at position [pos]; None when the
   origin has no such bytes *)
Fixpoint apply_records (o : bytes) (pos : Z) (rs : list precord) : option bytes :=
  match rs with
  | [] => Some []
  | r :: rest =>
      let n := zlen (r_diff r) in
      if (0 <=? pos) && (pos + n <=? zlen o) then
        match apply_records o (pos + n + r_adj r) rest with
        | Some out => Some (byte_sums (slice pos n o) (r_diff r) ++ r_extra r ++ out)
        | None => None
        end
      else None
  end.
(* lengths and moves fit the patch integers *)
Definition record_ok (r : precord) : Prop :=
  bytes_ok (r_diff r) /\ bytes_ok (r_extra r) /\ zlen (r_diff r) < 2^63 /\ zlen (r_extra r) < 2^63 /\
  - 2^63 < r_adj r < 2^63.

(* reading a patch integer *)
Definition dec_int (b : bytes) : Z := let v := unle b in if v <? 2^63 then v else - (v - 2^63).
(* the control triples (diff length, extra length, move) found in arbitrary
   patch bytes; a negative length covers no bytes *)
Fixpoint patch_headers (fuel : nat) (p : bytes) : list (Z * Z * Z) :=
  match fuel with
  | O => []
  | S k =>
      if zlen p <? 24 then []
      else
        let d := dec_int (slice 0 8 p) in
        let e := dec_int (slice 8 8 p) in
        (d, e, dec_int (slice 16 8 p)) :: patch_headers k (zdrop (24 + Z.max 0 d + Z.max 0 e) p)
  end.
(* no negative diff length and no origin position outside 64 bits *)
Fixpoint headers_sane (ooff pos : Z) (hs : list (Z * Z * Z)) : Prop :=
  match hs with
  | [] => True
  | (d, e, a) :: r =>
      0 <= d /\ - 2^63 <= ooff + pos < 2^63 /\ - 2^63 <= pos + d + a < 2^63 /\ headers_sane ooff (pos + d + a) r
  end.
