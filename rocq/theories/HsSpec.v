(* HsSpec.v -- the compressed format, independently of lib/heatshrink *)
From Verif Require Import Base.

(* [n] bits of [v], most significant first; the value of a bit string *)
Fixpoint to_bits (n : nat) (v : Z) : list bool :=
  match n with
  | O => []
  | S k => Z.testbit v (Z.of_nat k) :: to_bits k v
  end.
Definition bits_of (l : bytes) : list bool := flat_map (to_bits 8) l.
Definition val (l : list bool) : Z := fold_left (fun a b => 2 * a + Z.b2z b) l 0.

(* a stream is a sequence of literals and references to earlier output: [Ref d
   n] repeats n times the byte d positions back.  Before the first output byte
   there are 256 zero bytes. *)
Inductive token := Lit (c : Z) | Ref (dist len : Z).
Definition token_ok (t : token) : Prop :=
  match t with Lit c => 0 <= c < 256 | Ref d n => 1 <= d <= 256 /\ 1 <= n <= 128 end.
Definition token_bits (t : token) : list bool :=
  match t with
  | Lit c => true :: to_bits 8 c
  | Ref d n => false :: to_bits 8 (d - 1) ++ to_bits 7 (n - 1)
  end.
Fixpoint repeat_back (n : nat) (d : Z) (hist : bytes) : bytes :=
  match n with
  | O => hist
  | S k => repeat_back k d (hist ++ [znth 0 (zlen hist - d) hist])
  end.
Definition expand1 (hist : bytes) (t : token) : bytes :=
  match t with
  | Lit c => hist ++ [c]
  | Ref d n => repeat_back (Z.to_nat n) d hist
  end.
Definition expand (ts : list token) : bytes := zdrop 256 (fold_left expand1 ts (zeros 256)).

(* the complete tokens at the start of a bit string *)
Fixpoint parse (fuel : nat) (l : list bool) : list token :=
  match fuel with
  | O => []
  | S k =>
      match l with
      | [] => []
      | true :: r =>
          if (8 <=? zlen r) then Lit (val (ztake 8 r)) :: parse k (zdrop 8 r) else []
      | false :: r =>
          if (15 <=? zlen r)
          then Ref (1 + val (ztake 8 r)) (1 + val (slice 8 7 r)) :: parse k (zdrop 15 r)
          else []
      end
  end.
(* what a byte stream decodes to *)
Definition hs_decode (l : bytes) : bytes := expand (parse (length (bits_of l)) (bits_of l)).

(* a byte string is a compressed form of [s]: whole tokens that expand to [s],
   then fewer than 8 zero bits *)
Definition compressed (c s : bytes) : Prop :=
  bytes_ok c /\
  exists ts p, Forall token_ok ts /\ bits_of c = flat_map token_bits ts ++ repeat false p /\ (p < 8)%nat /\ expand ts = s.
