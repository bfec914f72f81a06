(* HsPatchModel.v -- heatshrink-compressed patches: the compressor of
   lib/bsdiff.c and the decompressor of lib/bspatch.c.  Definitions only.
   Callbacks as in BsdiffModel/BspatchModel: writes succeed. *)
From Verif Require Import Base BspatchModel BsdiffModel HsModel.

(* ---- lib/bsdiff.c:231-327: the result is the encoder and the buffers written
   to the output, in order (empty ones are not written) ---- *)
(* lib/bsdiff.c:257-278 *)
Fixpoint hsc_poll (fuel : nat) (e : hse) : res (hse * list bytes) :=
  match fuel with
  | O => Stuck
  | S k =>
      match e_poll 4096 e with
      | Ok (e1, out, more) =>
          let w := if zlen out >? 0 then [out] else [] in
          if more then do (e2, r) <- hsc_poll k e1; Ok (e2, w ++ r) else Ok (e1, w)
      | Err _ => Err E_COMPRESSOR_ERROR
      | UB => UB
      | Stuck => Stuck
      end
  end.
(* lib/bsdiff.c:244-280; [b]: buffer[sunk..length-1] *)
Fixpoint hsc_loop (fuel : nat) (e : hse) (b : bytes) : res (hse * list bytes) :=
  match fuel with
  | O => Stuck
  | S k =>
      do (e1, n) <-
        (do s <- e_sink e b;
         match s with None => Err E_COMPRESSOR_ERROR | Some p => Ok p end);
      do (e2, w) <- hsc_poll 800 e1;
      if n <? zlen b then do (e3, r) <- hsc_loop k e2 (zdrop n b); Ok (e3, w ++ r) else Ok (e2, w)
  end.
(* lib/bsdiff.c:231-283: without input only the polls *)
Definition hsc_write (e : hse) (b : bytes) : res (hse * list bytes) :=
  if zlen b >? 0 then hsc_loop (length b + 1) e b else hsc_poll 800 e.
(* lib/bsdiff.c:285-327 *)
Fixpoint hsc_final (fuel : nat) (e : hse) : res (hse * list bytes) :=
  match fuel with
  | O => Stuck
  | S k =>
      let (e1, more) := e_finish e in
      if more then
        match e_poll 4096 e1 with
        | Ok (e2, out, _) =>
            let w := if zlen out >? 0 then [out] else [] in
            do (e3, r) <- hsc_final k e2; Ok (e3, w ++ r)
        | Err _ => Err E_COMPRESSOR_ERROR
        | UB => UB
        | Stuck => Stuck
        end
      else Ok (e1, [])
  end.
Fixpoint hsc_writes (e : hse) (l : list bytes) : res (hse * list bytes) :=
  match l with
  | [] => Ok (e, [])
  | b :: r => do (e1, w) <- hsc_write e b; do (e2, w2) <- hsc_writes e1 r; Ok (e2, w ++ w2)
  end.
(* lib/bsdiff.c:660-717 with compression BPAK_COMPRESSION_HS: output file and
   length (output_pos) *)
Definition bsdiff_hs (o n : bytes) (sa : list Z) (f : bytes) (off : Z) : res (bytes * Z) :=
  do l <- bsdiff_chunks o n sa;
  do (e, w) <- hsc_writes e_reset l;
  do (_, w2) <- hsc_final 800 e;
  Ok (write_all f off 0 (w ++ w2)).

(* ---- lib/bspatch.c:315-376 ---- *)
(* [hp_ipos]: input_position *)
Record hspctx := mkHp { hp_bs : bsctx; hp_d : hsd; hp_ipos : Z }.
Definition hsp_init : hspctx := mkHp bs_init d_reset 0.
(* lib/bspatch.c:346-372, including the jump back to poll_more; [blen]: both
   patch_buffer_length and input_buffer_length *)
Fixpoint hsp_poll (o : bytes) (ooff woff blen ilen : Z) (fuel : nat) (h : hspctx) (f : bytes) : hspctx * bytes * res unit :=
  match fuel with
  | O => (h, f, Stuck)
  | S k =>
      match d_poll blen (hp_d h) with
      | Ok (d1, out, more) =>
          match bspatch_write o ooff woff blen (hp_bs h) f out with
          | (c1, f1, Ok _) =>
              let h1 := mkHp c1 d1 (hp_ipos h) in
              if more || ((hp_ipos h =? ilen) && d_finish d1) then hsp_poll o ooff woff blen ilen k h1 f1 else (h1, f1, Ok tt)
          | (c1, f1, r) => (mkHp c1 d1 (hp_ipos h), f1, r)
          end
      | Err _ => (h, f, Err E_DECOMPRESSOR_ERROR)
      | UB => (h, f, UB)
      | Stuck => (h, f, Stuck)
      end
  end.
(* lib/bspatch.c:334-373; [b]: buffer[sunk..length-1] *)
Fixpoint hsp_loop (o : bytes) (ooff woff blen ilen : Z) (fuel : nat) (h : hspctx) (f b : bytes) : hspctx * bytes * res unit :=
  match fuel with
  | O => (h, f, Stuck)
  | S k =>
      let (d1, n) := d_sink (hp_d h) b in
      match hsp_poll o ooff woff blen ilen (Z.to_nat 20000) (mkHp (hp_bs h) d1 (hp_ipos h + n)) f with
      | (h1, f1, Ok _) => if n <? zlen b then hsp_loop o ooff woff blen ilen k h1 f1 (zdrop n b) else (h1, f1, Ok tt)
      | x => x
      end
  end.
(* lib/bspatch.c:315-376 *)
Definition hsp_write (o : bytes) (ooff woff blen ilen : Z) (h : hspctx) (f b : bytes) : hspctx * bytes * res unit :=
  if hp_ipos h >=? ilen then (h, f, Err (-1))
  else hsp_loop o ooff woff blen ilen (length b + 1) h f b.
(* a caller feeding chunks until the first error *)
Fixpoint hsp_chunks (o : bytes) (ooff woff blen ilen : Z) (h : hspctx) (f : bytes) (l : list bytes) : hspctx * bytes * res unit :=
  match l with
  | [] => (h, f, Ok tt)
  | b :: r =>
      match hsp_write o ooff woff blen ilen h f b with
      | (h1, f1, Ok _) => hsp_chunks o ooff woff blen ilen h1 f1 r
      | x => x
      end
  end.
