(* HsModel.v -- lib/heatshrink: decoder and encoder.  Definitions only.
   Configuration: include/bpak/heatshrink_decoder.h:23-30 and
   lib/heatshrink/heatshrink_encoder.h:24-30: window 2^8 bytes, lookahead 2^7
   bytes, input buffer 256 bytes, no index.  NULL arguments are not modelled. *)
From Verif Require Import Base.

(* ---- decoder ----------------------------------------------------------- *)
(* lib/heatshrink/heatshrink_decoder.c:34-42; the MSB states need more than 8
   window or lookahead bits and are never entered in this configuration *)
Inductive dstate := DTag | DLit | DIdx | DCnt | DRef.
Definition dstate_eqb (a b : dstate) : bool :=
  match a, b with DTag, DTag | DLit, DLit | DIdx, DIdx | DCnt, DCnt | DRef, DRef => true | _, _ => false end.
(* include/bpak/heatshrink_decoder.h:57-70.  [d_in]: buffers[0..255], [d_win]:
   buffers[256..511] *)
Record hsd := mkD {
  d_isz : Z; d_iidx : Z; d_ocnt : Z; d_oidx : Z; d_head : Z; d_st : dstate;
  d_cur : Z; d_bit : Z; d_in : bytes; d_win : bytes }.
(* lib/heatshrink/heatshrink_decoder.c:76-89 *)
Definition d_reset : hsd := mkD 0 0 0 0 0 DTag 0 0 (zeros 256) (zeros 256).

(* lib/heatshrink/heatshrink_decoder.c:92-113: the bytes taken (FULL: none) *)
Definition d_sink (d : hsd) (b : bytes) : hsd * Z :=
  let rem := 256 - d_isz d in
  if rem =? 0 then (d, 0)
  else
    let n := if rem <? zlen b then rem else zlen b in
    (mkD (d_isz d + n) (d_iidx d) (d_ocnt d) (d_oidx d) (d_head d) (d_st d) (d_cur d) (d_bit d)
       (splice (d_isz d) (ztake n b) (d_in d)) (d_win d), n).

Definition set_dst (d : hsd) (s : dstate) : hsd :=
  mkD (d_isz d) (d_iidx d) (d_ocnt d) (d_oidx d) (d_head d) s (d_cur d) (d_bit d) (d_in d) (d_win d).

(* lib/heatshrink/heatshrink_decoder.c:359-385; None: NO_BITS.  Reading outside
   the input buffer is UB *)
Fixpoint get_bits_loop (n : nat) (acc : Z) (d : hsd) : res (hsd * option Z) :=
  match n with
  | O => Ok (d, Some acc)
  | S k =>
      let step d :=
        let acc1 := Z.lor (u16 (Z.shiftl acc 1)) (if Z.land (d_cur d) (d_bit d) =? 0 then 0 else 1) in
        get_bits_loop k acc1
          (mkD (d_isz d) (d_iidx d) (d_ocnt d) (d_oidx d) (d_head d) (d_st d) (d_cur d)
             (Z.shiftr (d_bit d) 1) (d_in d) (d_win d)) in
      if d_bit d =? 0 then
        if d_isz d =? 0 then Ok (d, None)
        else if negb ((0 <=? d_iidx d) && (d_iidx d <? zlen (d_in d))) then UB
        else
          let c := znth 0 (d_iidx d) (d_in d) in
          let i := u16 (d_iidx d + 1) in
          if i =? d_isz d
          then step (mkD 0 0 (d_ocnt d) (d_oidx d) (d_head d) (d_st d) c 128 (d_in d) (d_win d))
          else step (mkD (d_isz d) i (d_ocnt d) (d_oidx d) (d_head d) (d_st d) c 128 (d_in d) (d_win d))
      else step d
  end.
(* lib/heatshrink/heatshrink_decoder.c:340-392; [count] is 1, 7 or 8 here *)
Definition get_bits (d : hsd) (count : nat) : res (hsd * option Z) :=
  if (d_isz d =? 0) && (d_bit d <? 2 ^ (Z.of_nat count - 1)) then Ok (d, None)
  else get_bits_loop count 0 d.

(* push_byte, lib/heatshrink/heatshrink_decoder.c:424-431: [out] is what was
   stored so far, [osz] the size of the output buffer *)
Definition push_byte (osz : Z) (out : bytes) (c : Z) : res bytes :=
  if zlen out <? osz then Ok (out ++ [c]) else UB.
(* the window is indexed with "& mask", mask = 255 *)
Definition win_get (d : hsd) (i : Z) : Z := znth 0 (Z.land i 255) (d_win d).
Definition win_put (d : hsd) (c : Z) : hsd :=
  mkD (d_isz d) (d_iidx d) (d_ocnt d) (d_oidx d) (u16 (d_head d + 1)) (d_st d) (d_cur d) (d_bit d)
    (d_in d) (splice (Z.land (d_head d) 255) [c] (d_win d)).

(* lib/heatshrink/heatshrink_decoder.c:191-205 *)
Definition d_tag (d : hsd) : res hsd :=
  do (d1, b) <- get_bits d 1;
  match b with
  | None => Ok d1
  | Some b =>
      if b =? 0
      then Ok (mkD (d_isz d1) (d_iidx d1) (d_ocnt d1) 0 (d_head d1) DIdx (d_cur d1) (d_bit d1) (d_in d1) (d_win d1))
      else Ok (set_dst d1 DLit)
  end.
(* lib/heatshrink/heatshrink_decoder.c:207-234 *)
Definition d_lit (osz : Z) (d : hsd) (out : bytes) : res (hsd * bytes) :=
  if zlen out <? osz then
    do (d1, b) <- get_bits d 8;
    match b with
    | None => Ok (d1, out)
    | Some b =>
        do out1 <- push_byte osz out (Z.land b 255);
        Ok (set_dst (win_put d1 (Z.land b 255)) DTag, out1)
    end
  else Ok (d, out).
(* lib/heatshrink/heatshrink_decoder.c:252-269 *)
Definition d_idx (d : hsd) : res hsd :=
  do (d1, b) <- get_bits d 8;
  match b with
  | None => Ok d1
  | Some b =>
      Ok (mkD (d_isz d1) (d_iidx d1) 0 (u16 (Z.lor (d_oidx d1) b + 1)) (d_head d1) DCnt (d_cur d1) (d_bit d1)
            (d_in d1) (d_win d1))
  end.
(* lib/heatshrink/heatshrink_decoder.c:286-300 *)
Definition d_cnt (d : hsd) : res hsd :=
  do (d1, b) <- get_bits d 7;
  match b with
  | None => Ok d1
  | Some b =>
      Ok (mkD (d_isz d1) (d_iidx d1) (u16 (Z.lor (d_ocnt d1) b + 1)) (d_oidx d1) (d_head d1) DRef (d_cur d1)
            (d_bit d1) (d_in d1) (d_win d1))
  end.
(* lib/heatshrink/heatshrink_decoder.c:320-326 *)
Fixpoint d_copy (osz : Z) (n : nat) (d : hsd) (out : bytes) : res (hsd * bytes) :=
  match n with
  | O => Ok (d, out)
  | S k =>
      let c := win_get d (d_head d - d_oidx d) in
      do out1 <- push_byte osz out c;
      d_copy osz k (win_put d c) out1
  end.
(* lib/heatshrink/heatshrink_decoder.c:302-336 *)
Definition d_ref (osz : Z) (d : hsd) (out : bytes) : res (hsd * bytes) :=
  let room := osz - zlen out in
  if room >? 0 then
    let count := if d_ocnt d <? room then d_ocnt d else room in
    do (d1, out1) <- d_copy osz (Z.to_nat count) d out;
    let oc := d_ocnt d1 - count in
    Ok (mkD (d_isz d1) (d_iidx d1) oc (d_oidx d1) (d_head d1) (if oc =? 0 then DTag else DRef) (d_cur d1)
          (d_bit d1) (d_in d1) (d_win d1), out1)
  else Ok (d, out).
Definition d_step (osz : Z) (d : hsd) (out : bytes) : res (hsd * bytes) :=
  match d_st d with
  | DTag => do d1 <- d_tag d; Ok (d1, out)
  | DLit => d_lit osz d out
  | DIdx => do d1 <- d_idx d; Ok (d1, out)
  | DCnt => do d1 <- d_cnt d; Ok (d1, out)
  | DRef => d_ref osz d out
  end.
(* lib/heatshrink/heatshrink_decoder.c:145-188: the output and whether the
   result is MORE *)
Fixpoint d_poll_loop (fuel : nat) (osz : Z) (d : hsd) (out : bytes) : res (hsd * bytes * bool) :=
  match fuel with
  | O => Stuck
  | S k =>
      do (d1, out1) <- d_step osz d out;
      if dstate_eqb (d_st d1) (d_st d) then Ok (d1, out1, zlen out1 =? osz)
      else d_poll_loop k osz d1 out1
  end.
(* lib/heatshrink/heatshrink_decoder.c:131-189 *)
Definition d_poll (osz : Z) (d : hsd) : res (hsd * bytes * bool) :=
  d_poll_loop (Z.to_nat (8 * d_isz d + 16)) osz d [].
(* lib/heatshrink/heatshrink_decoder.c:394-422: true is MORE *)
Definition d_finish (d : hsd) : bool :=
  match d_st d with DRef => true | _ => negb (d_isz d =? 0) end.

(* ---- encoder ----------------------------------------------------------- *)
(* the states of lib/heatshrink/heatshrink_encoder.c:12-24 *)
Inductive estate := ENotFull | EFilled | ESearch | ETag | ELit | EIdx | ELen | ESave | EFlush | EDone.
Definition estate_eqb (a b : estate) : bool :=
  match a, b with
  | ENotFull, ENotFull | EFilled, EFilled | ESearch, ESearch | ETag, ETag | ELit, ELit | EIdx, EIdx
  | ELen, ELen | ESave, ESave | EFlush, EFlush | EDone, EDone => true
  | _, _ => false
  end.
(* lib/heatshrink/heatshrink_encoder.h:57-70; [e_fin]: FLAG_IS_FINISHING.  All
   16-bit quantities of the encoder stay below 1024 (part of the invariant
   proved in HsEncoder.v), so no modulus is written on them. *)
Record hse := mkE {
  e_isz : Z; e_msi : Z; e_mlen : Z; e_mpos : Z; e_obits : Z; e_ocnt : Z; e_fin : bool; e_st : estate;
  e_cur : Z; e_bit : Z; e_buf : bytes }.
(* lib/heatshrink/heatshrink_encoder.c:70-88 (match_pos is not reset; it is
   written before it is read) *)
Definition e_reset : hse := mkE 0 0 0 0 0 0 false ENotFull 0 128 (zeros 512).
Definition set_est (e : hse) (s : estate) : hse :=
  mkE (e_isz e) (e_msi e) (e_mlen e) (e_mpos e) (e_obits e) (e_ocnt e) (e_fin e) s (e_cur e) (e_bit e) (e_buf e).

(* lib/heatshrink/heatshrink_encoder.c:90-130; None: HSER_SINK_ERROR_MISUSE *)
Definition e_sink (e : hse) (b : bytes) : res (option (hse * Z)) :=
  if e_fin e then Ok None
  else if negb (estate_eqb (e_st e) ENotFull) then Ok None
  else
    let off := 256 + e_isz e in
    let rem := 256 - e_isz e in
    let n := if rem <? zlen b then rem else zlen b in
    if (n <? 0) || (off + n >? zlen (e_buf e)) then UB
    else Ok (Some (mkE (e_isz e + n) (e_msi e) (e_mlen e) (e_mpos e) (e_obits e) (e_ocnt e) (e_fin e)
                     (if n =? rem then EFilled else ENotFull) (e_cur e) (e_bit e)
                     (splice off (ztake n b) (e_buf e)), n)).

(* reading buffer[i] *)
Definition e_get (e : hse) (i : Z) : res Z :=
  if (0 <=? i) && (i <? zlen (e_buf e)) then Ok (znth 0 i (e_buf e)) else UB.
(* lib/heatshrink/heatshrink_encoder.c:426-430: len counted up from [len] *)
Fixpoint e_match_len (fuel : nat) (e : hse) (pos end_ len maxlen : Z) : res Z :=
  match fuel with
  | O => Stuck
  | S k =>
      if len <? maxlen then
        do a <- e_get e (pos + len);
        do b <- e_get e (end_ + len);
        if a =? b then e_match_len k e pos end_ (len + 1) maxlen else Ok len
      else Ok len
  end.
(* lib/heatshrink/heatshrink_encoder.c:421-441: best match so far is [best] at
   [idx] (-1: MATCH_NOT_FOUND) *)
Fixpoint e_find_loop (fuel : nat) (e : hse) (pos start end_ maxlen best idx : Z) : res (Z * Z) :=
  match fuel with
  | O => Stuck
  | S k =>
      if pos - start >=? 0 then
        do a <- e_get e (pos + best);
        do b <- e_get e (end_ + best);
        do p <- e_get e pos;
        do q <- e_get e end_;
        if (a =? b) && (p =? q) then
          do len <- e_match_len (Z.to_nat maxlen + 1) e pos end_ 1 maxlen;
          if len >? best then
            if len =? maxlen then Ok (len, pos)
            else e_find_loop k e (pos - 1) start end_ maxlen len pos
          else e_find_loop k e (pos - 1) start end_ maxlen best idx
        else e_find_loop k e (pos - 1) start end_ maxlen best idx
      else Ok (best, idx)
  end.
(* lib/heatshrink/heatshrink_encoder.c:403-461: (length, distance) of a match;
   break_even_point / 8 = (1 + 8 + 7) / 8 = 2 *)
Definition e_find (e : hse) (start end_ maxlen : Z) : res (option (Z * Z)) :=
  do (best, idx) <- e_find_loop (Z.to_nat (end_ - start) + 1) e (end_ - 1) start end_ maxlen 0 (-1);
  if best >? 2 then Ok (Some (best, end_ - idx)) else Ok None.
(* lib/heatshrink/heatshrink_encoder.c:234-280 *)
Definition e_search (e : hse) : res hse :=
  if e_msi e >? e_isz e - (if e_fin e then 1 else 128)
  then Ok (set_est e (if e_fin e then EFlush else ESave))
  else
    let end_ := 256 + e_msi e in
    let start := end_ - 256 in
    let maxp := if e_isz e - e_msi e <? 128 then e_isz e - e_msi e else 128 in
    do m <- e_find e start end_ maxp;
    match m with
    | None => Ok (mkE (e_isz e) (e_msi e + 1) 0 (e_mpos e) (e_obits e) (e_ocnt e) (e_fin e) ETag (e_cur e) (e_bit e) (e_buf e))
    | Some (len, dist) =>
        Ok (mkE (e_isz e) (e_msi e) len dist (e_obits e) (e_ocnt e) (e_fin e) ETag (e_cur e) (e_bit e) (e_buf e))
    end.

Definition e_out (osz : Z) (out : bytes) (c : Z) : res bytes :=
  if zlen out <? osz then Ok (out ++ [c]) else UB.
(* lib/heatshrink/heatshrink_encoder.c:498-513, i = n - 1 down to 0 *)
Fixpoint push_bits_loop (n : nat) (osz : Z) (bits : Z) (cur bit : Z) (out : bytes) : res (Z * Z * bytes) :=
  match n with
  | O => Ok (cur, bit, out)
  | S k =>
      let cur1 := if Z.land bits (2 ^ Z.of_nat k) =? 0 then cur else Z.lor cur bit in
      let bit1 := Z.shiftr bit 1 in
      if bit1 =? 0 then
        do out1 <- e_out osz out cur1;
        push_bits_loop k osz bits 0 128 out1
      else push_bits_loop k osz bits cur1 bit1 out
  end.
(* lib/heatshrink/heatshrink_encoder.c:487-515 *)
Definition push_bits (osz : Z) (n : nat) (bits : Z) (e : hse) (out : bytes) : res (hse * bytes) :=
  if (Nat.eqb n 8) && (e_bit e =? 128) then
    do out1 <- e_out osz out bits; Ok (e, out1)
  else
    do (cb, out1) <- push_bits_loop n osz bits (e_cur e) (e_bit e) out;
    let '(cur, bit) := cb in
    Ok (mkE (e_isz e) (e_msi e) (e_mlen e) (e_mpos e) (e_obits e) (e_ocnt e) (e_fin e) (e_st e) cur bit (e_buf e), out1).
(* lib/heatshrink/heatshrink_encoder.c:463-483: also the count *)
Definition push_outgoing (osz : Z) (e : hse) (out : bytes) : res (hse * bytes * Z) :=
  let count := if e_ocnt e >? 8 then 8 else e_ocnt e in
  let bits := u8 (if e_ocnt e >? 8 then Z.shiftr (e_obits e) (e_ocnt e - 8) else e_obits e) in
  if count >? 0 then
    do (e1, out1) <- push_bits osz (Z.to_nat count) bits e out;
    Ok (mkE (e_isz e1) (e_msi e1) (e_mlen e1) (e_mpos e1) (e_obits e1) (e_ocnt e1 - count) (e_fin e1) (e_st e1)
          (e_cur e1) (e_bit e1) (e_buf e1), out1, count)
  else Ok (e, out, count).

(* lib/heatshrink/heatshrink_encoder.c:282-297 *)
Definition e_tag (osz : Z) (e : hse) (out : bytes) : res (hse * bytes) :=
  if zlen out <? osz then
    if e_mlen e =? 0 then
      do (e1, out1) <- push_bits osz 1 1 e out; Ok (set_est e1 ELit, out1)
    else
      do (e1, out1) <- push_bits osz 1 0 e out;
      Ok (mkE (e_isz e1) (e_msi e1) (e_mlen e1) (e_mpos e1) (e_mpos e1 - 1) 8 (e_fin e1) EIdx (e_cur e1) (e_bit e1)
            (e_buf e1), out1)
  else Ok (e, out).
(* lib/heatshrink/heatshrink_encoder.c:299-307, 517-527 *)
Definition e_lit (osz : Z) (e : hse) (out : bytes) : res (hse * bytes) :=
  if zlen out <? osz then
    do c <- e_get e (256 + (e_msi e - 1));
    do (e1, out1) <- push_bits osz 8 c e out; Ok (set_est e1 ESearch, out1)
  else Ok (e, out).
(* lib/heatshrink/heatshrink_encoder.c:309-324 *)
Definition e_idx (osz : Z) (e : hse) (out : bytes) : res (hse * bytes) :=
  if zlen out <? osz then
    do (eo, n) <- push_outgoing osz e out;
    let '(e1, out1) := eo in
    if n >? 0 then Ok (e1, out1)
    else Ok (mkE (e_isz e1) (e_msi e1) (e_mlen e1) (e_mpos e1) (e_mlen e1 - 1) 7 (e_fin e1) ELen (e_cur e1) (e_bit e1)
               (e_buf e1), out1)
  else Ok (e, out).
(* lib/heatshrink/heatshrink_encoder.c:326-341 *)
Definition e_len (osz : Z) (e : hse) (out : bytes) : res (hse * bytes) :=
  if zlen out <? osz then
    do (eo, n) <- push_outgoing osz e out;
    let '(e1, out1) := eo in
    if n >? 0 then Ok (e1, out1)
    else Ok (mkE (e_isz e1) (e_msi e1 + e_mlen e1) 0 (e_mpos e1) (e_obits e1) (e_ocnt e1) (e_fin e1) ESearch (e_cur e1)
               (e_bit e1) (e_buf e1), out1)
  else Ok (e, out).
(* lib/heatshrink/heatshrink_encoder.c:343-348, 529-546 *)
Definition e_save (e : hse) : res hse :=
  let rem := 256 - e_msi e in
  let shift := 256 + rem in
  if (rem <? 0) || (256 - rem + shift >? zlen (e_buf e)) then UB
  else Ok (mkE (e_isz e - (256 - rem)) 0 (e_mlen e) (e_mpos e) (e_obits e) (e_ocnt e) (e_fin e) ENotFull (e_cur e)
             (e_bit e) (splice 0 (slice (256 - rem) shift (e_buf e)) (e_buf e))).
(* lib/heatshrink/heatshrink_encoder.c:350-364 *)
Definition e_flush (osz : Z) (e : hse) (out : bytes) : res (hse * bytes) :=
  if e_bit e =? 128 then Ok (set_est e EDone, out)
  else if zlen out <? osz then
    do out1 <- e_out osz out (e_cur e); Ok (set_est e EDone, out1)
  else Ok (e, out).
(* the cases of lib/heatshrink/heatshrink_encoder.c:175-208 that do not return *)
Definition e_step (osz : Z) (e : hse) (out : bytes) : res (hse * bytes) :=
  match e_st e with
  | EFilled => Ok (set_est e ESearch, out)
  | ESearch => do e1 <- e_search e; Ok (e1, out)
  | ETag => e_tag osz e out
  | ELit => e_lit osz e out
  | EIdx => e_idx osz e out
  | ELen => e_len osz e out
  | ESave => do e1 <- e_save e; Ok (e1, out)
  | _ => Ok (e, out)
  end.
(* lib/heatshrink/heatshrink_encoder.c:168-215: the output and whether the
   result is MORE *)
Fixpoint e_poll_loop (fuel : nat) (osz : Z) (e : hse) (out : bytes) : res (hse * bytes * bool) :=
  match fuel with
  | O => Stuck
  | S k =>
      match e_st e with
      | ENotFull | EDone => Ok (e, out, false)
      | EFlush => do (e1, out1) <- e_flush osz e out; Ok (e1, out1, false)
      | _ =>
          do (e1, out1) <- e_step osz e out;
          if estate_eqb (e_st e1) (e_st e) && (zlen out1 =? osz) then Ok (e1, out1, true)
          else e_poll_loop k osz e1 out1
      end
  end.
(* lib/heatshrink/heatshrink_encoder.c:149-216; an empty output buffer is
   HSER_POLL_ERROR_MISUSE *)
Definition e_poll (osz : Z) (e : hse) : res (hse * bytes * bool) :=
  if osz =? 0 then Err (-2)
  else e_poll_loop (Z.to_nat (8 * e_isz e + 16)) osz e [].
(* lib/heatshrink/heatshrink_encoder.c:218-232: true is MORE *)
Definition e_finish (e : hse) : hse * bool :=
  let e1 := mkE (e_isz e) (e_msi e) (e_mlen e) (e_mpos e) (e_obits e) (e_ocnt e) true
              (match e_st e with ENotFull => EFilled | s => s end) (e_cur e) (e_bit e) (e_buf e) in
  (e1, negb (estate_eqb (e_st e1) EDone)).

(* ---- callers ----------------------------------------------------------- *)
(* a caller of the decoder: any sequence of sinks and polls; the result is the
   decoder, the bytes it took and the bytes it gave *)
Inductive dop := DSink (b : bytes) | DPoll (osz : Z).
Fixpoint d_run (d : hsd) (ops : list dop) : res (hsd * bytes * bytes) :=
  match ops with
  | [] => Ok (d, [], [])
  | DSink b :: r =>
      let '(d1, n) := d_sink d b in
      do (p, o) <- d_run d1 r;
      Ok (fst p, ztake n b ++ snd p, o)
  | DPoll osz :: r =>
      do (p, _) <- d_poll osz d;
      do (q, o) <- d_run (fst p) r;
      Ok (q, snd p ++ o)
  end.
(* a caller of the encoder: any sequence of sinks, polls and finishes; calls
   refused as misuse change nothing *)
Inductive eop := ESink (b : bytes) | EPoll (osz : Z) | EFinish.
Fixpoint e_run (e : hse) (ops : list eop) : res (hse * bytes * bytes) :=
  match ops with
  | [] => Ok (e, [], [])
  | ESink b :: r =>
      do s <- e_sink e b;
      match s with
      | Some (e1, n) => do (p, o) <- e_run e1 r; Ok (fst p, ztake n b ++ snd p, o)
      | None => e_run e r
      end
  | EPoll osz :: r =>
      match e_poll osz e with
      | Ok (e1, o1, _) => do (q, o) <- e_run e1 r; Ok (q, o1 ++ o)
      | Err _ => e_run e r
      | UB => UB
      | Stuck => Stuck
      end
  | EFinish :: r => e_run (fst (e_finish e)) r
  end.
