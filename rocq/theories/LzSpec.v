(* LzSpec.v -- what is assumed of liblzma, as a contract between its encoder and
   its decoder.  [stream X Y]: the bytes [Y] are a complete compressed stream of
   the data [X]. *)
From Verif Require Import Base LzModel.

(* The encoder.  Two invariants over "has taken [X] and produced [Y]": one while
   it is run, one once it has been told to finish.  Running it never fails and
   never ends the stream; finishing it never fails and ends with a complete
   stream of everything taken. *)
Definition lz_encodes (L : lzstream) (stream : bytes -> bytes -> Prop) : Prop :=
  exists running finishing : lz_st L -> bytes -> bytes -> Prop,
    running (lz_init L) [] [] /\
    (forall s X Y, running s X Y -> finishing s X Y) /\
    (forall s X Y b, running s X Y -> bytes_ok b -> b <> [] ->
      exists s1 n out, lz_code L s b 4096 false = (s1, n, out, LzOk) /\
        0 <= n <= zlen b /\ bytes_ok out /\ running s1 (X ++ ztake n b) (Y ++ out) /\
        (lz_calls L s1 (zlen b - n) false < lz_calls L s (zlen b) false)%nat) /\
    (forall s X Y, finishing s X Y ->
      exists s1 n out r, lz_code L s [] 4096 true = (s1, n, out, r) /\ bytes_ok out /\
        match r with
        | LzOk => finishing s1 X (Y ++ out) /\ (lz_calls L s1 0 true < lz_calls L s 0 true)%nat
        | LzEnd => stream X (Y ++ out)
        | LzErr => False
        end).

(* The decoder, given a piece of a stream [Y] of [X]: while run it produces
   pieces of [X] and does not fail; told to finish it delivers the rest of [X]
   and reports the end if it was given all of [Y], and an error if something is
   missing. *)
Definition lz_decodes (L : lzstream) (stream : bytes -> bytes -> Prop) : Prop :=
  forall X Y, stream X Y ->
  exists running finishing : lz_st L -> bytes -> bytes -> Prop,
    running (lz_init L) [] [] /\
    (forall s C O, running s C O -> finishing s C O) /\
    (forall s C O b rest, running s C O -> b <> [] -> Y = C ++ b ++ rest ->
      exists s1 n out, lz_code L s b 8192 false = (s1, n, out, LzOk) /\
        0 <= n <= zlen b /\ running s1 (C ++ ztake n b) (O ++ out) /\ (exists x, X = O ++ out ++ x) /\
        (lz_calls L s1 (zlen b - n) false < lz_calls L s (zlen b) false)%nat) /\
    (forall s C O rest, finishing s C O -> Y = C ++ rest ->
      exists s1 n out r, lz_code L s [] 8192 true = (s1, n, out, r) /\ (exists x, X = O ++ out ++ x) /\
        match r with
        | LzOk => finishing s1 C (O ++ out) /\ (lz_calls L s1 0 true < lz_calls L s 0 true)%nat
        | LzEnd => rest = [] /\ X = O ++ out
        | LzErr => rest <> []
        end).

(* on any input whatsoever, the decoder makes progress or reports an error *)
Definition lz_progresses (L : lzstream) : Prop :=
  forall s b fin s1 n out, b <> [] \/ fin = true -> lz_code L s b 8192 fin = (s1, n, out, LzOk) ->
    0 <= n <= zlen b /\ (lz_calls L s1 (zlen b - n) fin < lz_calls L s (zlen b) fin)%nat.
(* ... and what it produces are bytes *)
Definition lz_outputs_bytes (L : lzstream) : Prop :=
  forall s b fin s1 n out r, lz_code L s b 8192 fin = (s1, n, out, r) -> bytes_ok out.

(* encoder and decoder belong together *)
Definition lz_good (lib : lzlib) : Prop :=
  exists stream, lz_encodes (lz_enc lib) stream /\ lz_decodes (lz_dec lib) stream.
