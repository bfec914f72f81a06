(* BspatchModel.v -- lib/bspatch.c without the compressed formats: patch
   integers and the patch applying state machine.  Definitions only.
   The output is a file written with lseek/fseek + write at the position the
   callback is given (lib/pkg.c:207-217); the origin is a file read the same
   way (lib/pkg.c:247-257).  Writes succeed. *)
From Verif Require Import Base.

(* lib/bspatch.c:28-52 *)
Definition offtin (b : bytes) : Z :=
  let byte i := nth i b 0 in
  let y := Z.land (byte 7%nat) 127 in
  let y := y * 256 + byte 6%nat in
  let y := y * 256 + byte 5%nat in
  let y := y * 256 + byte 4%nat in
  let y := y * 256 + byte 3%nat in
  let y := y * 256 + byte 2%nat in
  let y := y * 256 + byte 1%nat in
  let y := y * 256 + byte 0%nat in
  if Z.land (byte 7%nat) 128 =? 0 then y else - y.

(* lib/bsdiff.c:103-137.  y % 256 and y / 256 are C's (truncating) operators on
   int64_t; -x overflows for the minimum value (UB) *)
Fixpoint offtout_loop (n : nat) (y : Z) : bytes :=
  match n with
  | O => []
  | S k => let b := u8 (Z.rem y 256) in b :: offtout_loop k (Z.quot (y - b) 256)
  end.
Definition offtout (x : Z) : res bytes :=
  if x =? - 2^63 then UB
  else
    let y := if x <? 0 then - x else x in
    let l := offtout_loop 8 y in
    Ok (if x <? 0 then list_upd 7 (Z.lor (nth 7 l 0) 128) l else l).

(* include/bpak/bspatch.h: enum bpak_bspatch_state (FINISH is never entered) *)
Inductive bstate := BFill | BRead | BDiff | BExtra | BError.
(* the fields of struct bpak_bspatch_context that change.  [bs_ctrl]: the first
   ctrl_buf_count bytes of ctrl_buf *)
Record bsctx := mkBs {
  bs_state : bstate; bs_ctrl : bytes; bs_diff : Z; bs_extra : Z; bs_adj : Z;
  bs_opos : Z (* origin_position *); bs_wpos : Z (* output_position *) }.
(* lib/bspatch.c:378-413: after memset *)
Definition bs_init : bsctx := mkBs BFill [] 0 0 0 0 0.
Definition bs_fail (c : bsctx) : bsctx :=
  mkBs BError (bs_ctrl c) (bs_diff c) (bs_extra c) (bs_adj c) (bs_opos c) (bs_wpos c).

Definition in_i64 (x : Z) : bool := (- 2^63 <=? x) && (x <? 2^63).
(* lib/pkg.c:247-257 decode_read_origin; fread into [n] bytes of buffer *)
Definition read_origin (o : bytes) (off n : Z) : res bytes :=
  if off <? 0 then Err E_SEEK_ERROR else Ok (fread_at o off n).
(* lib/bspatch.c:126-128 *)
Fixpoint add_bytes (a b : bytes) : bytes :=
  match a, b with
  | x :: r, y :: s => u8 (x + y) :: add_bytes r s
  | _, _ => []
  end.
(* origin_position += adjust (lib/bspatch.c:155-157, 191-193); signed overflow
   is UB *)
Definition bs_next (c : bsctx) : res bsctx :=
  let p := bs_opos c + bs_adj c in
  if in_i64 p then Ok (mkBs BFill [] (bs_diff c) (bs_extra c) (bs_adj c) p (bs_wpos c)) else UB.

(* lib/bspatch.c:54-209.  [o]: origin file, [ooff]/[woff]: origin_offset and
   output_offset, [blen]: patch_buffer_length, [f]: output file, [pp]: the
   input not consumed yet.  A negative diff_count makes data_to_process
   negative; it is passed as a size to the callbacks and added to
   bytes_available: UB. *)
Fixpoint bs_loop (o : bytes) (ooff woff blen : Z) (fuel : nat) (c : bsctx) (f : bytes) (pp : bytes)
    : bsctx * bytes * res unit :=
  match fuel with
  | O => (c, f, Stuck)
  | S k =>
      match bs_state c with
      | BFill => (* :64-79 *)
          if zlen (bs_ctrl c) <? 24 then
            let n := Z.min (zlen pp) (24 - zlen (bs_ctrl c)) in
            let ctrl := bs_ctrl c ++ ztake n pp in
            if zlen ctrl =? 24 then
              bs_loop o ooff woff blen k
                (mkBs BRead ctrl (bs_diff c) (bs_extra c) (bs_adj c) (bs_opos c) (bs_wpos c)) f (zdrop n pp)
            else (mkBs BFill ctrl (bs_diff c) (bs_extra c) (bs_adj c) (bs_opos c) (bs_wpos c), f, Ok tt)
          else (c, f, Ok tt)
      | BRead => (* :80-96 *)
          let c1 := mkBs BDiff (bs_ctrl c) (offtin (slice 0 8 (bs_ctrl c))) (offtin (slice 8 8 (bs_ctrl c)))
                      (offtin (slice 16 8 (bs_ctrl c))) (bs_opos c) (bs_wpos c) in
          if zlen pp >? 0 then bs_loop o ooff woff blen k c1 f pp else (c1, f, Ok tt)
      | BDiff => (* :97-164 *)
          let n := Z.min (Z.min (zlen pp) (bs_diff c)) blen in
          if n <? 0 then (c, f, UB)
          else if negb (in_i64 (ooff + bs_opos c)) then (c, f, UB)
          else
            match read_origin o (ooff + bs_opos c) n with
            | Ok b =>
                if zlen b =? n then
                  let f1 := fwrite_at f (woff + bs_wpos c) (add_bytes b (ztake n pp)) in
                  let c1 := mkBs BDiff (bs_ctrl c) (bs_diff c - n) (bs_extra c) (bs_adj c)
                              (bs_opos c + n) (bs_wpos c + n) in
                  let r := if bs_diff c1 =? 0 then
                             if bs_extra c1 >? 0
                             then Ok (mkBs BExtra (bs_ctrl c1) (bs_diff c1) (bs_extra c1) (bs_adj c1) (bs_opos c1) (bs_wpos c1))
                             else bs_next c1
                           else Ok c1 in
                  match r with
                  | Ok c2 => if zlen (zdrop n pp) >? 0 then bs_loop o ooff woff blen k c2 f1 (zdrop n pp)
                             else (c2, f1, Ok tt)
                  | _ => (c1, f1, UB)
                  end
                else (bs_fail c, f, Err E_PATCH_READ_ORIGIN_ERROR)
            | Err e => (bs_fail c, f, Err e)
            | _ => (c, f, UB)
            end
      | BExtra => (* :165-199 *)
          let n := Z.min (zlen pp) (bs_extra c) in
          let f1 := fwrite_at f (woff + bs_wpos c) (ztake n pp) in
          let c1 := mkBs BExtra (bs_ctrl c) (bs_diff c) (bs_extra c - n) (bs_adj c) (bs_opos c) (bs_wpos c + n) in
          if bs_extra c1 =? 0 then
            match bs_next c1 with
            | Ok c2 => if zlen (zdrop n pp) >? 0 then bs_loop o ooff woff blen k c2 f1 (zdrop n pp)
                       else (c2, f1, Ok tt)
            | _ => (c1, f1, UB)
            end
          else (c1, f1, Ok tt)
      | BError => (c, f, Err (-1))
      end
  end.
Definition bspatch_write (o : bytes) (ooff woff blen : Z) (c : bsctx) (f pp : bytes) : bsctx * bytes * res unit :=
  bs_loop o ooff woff blen (3 * length pp + 4) c f pp.
(* lib/bspatch.c:439-463 without compression *)
Definition bspatch_final (c : bsctx) : res Z :=
  match bs_state c with BError => Err (-1) | _ => Ok (bs_wpos c) end.

(* a caller feeding chunks until the first error *)
Fixpoint bspatch_chunks (o : bytes) (ooff woff blen : Z) (c : bsctx) (f : bytes) (l : list bytes)
    : bsctx * bytes * res unit :=
  match l with
  | [] => (c, f, Ok tt)
  | b :: r =>
      match bspatch_write o ooff woff blen c f b with
      | (c1, f1, Ok _) => bspatch_chunks o ooff woff blen c1 f1 r
      | x => x
      end
  end.
