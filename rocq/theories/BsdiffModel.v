(* BsdiffModel.v -- lib/bsdiff.c: generating a patch.  Definitions only.
   Not modelled: sais (the suffix array is an input), LZMA, allocation failure.
   The result is the sequence of buffers given to compressor_write. *)
From Verif Require Import Base BspatchModel.

(* reading p[i] of an array of which only the listed elements exist *)
Definition getz (l : list Z) (i : Z) : res Z :=
  if i <? 0 then UB else match nth_error l (Z.to_nat i) with Some x => Ok x | None => UB end.
(* conversion to int32_t *)
Definition s32 (x : Z) : Z := (x + 2147483648) mod 4294967296 - 2147483648.

(* lib/bsdiff.c:36-48: arguments as byte strings (pointer + size) *)
Fixpoint match_count (a b : bytes) : Z :=
  match a, b with
  | x :: r, y :: s => if x =? y then 1 + match_count r s else 0
  | _, _ => 0
  end.
Definition matchlen (a b : bytes) : Z := s32 (match_count a b).
(* memcmp(a, b, BPAK_MIN(|a|, |b|)) < 0 *)
Fixpoint memcmp_lt (a b : bytes) : bool :=
  match a, b with
  | x :: r, y :: s => if x =? y then memcmp_lt r s else x <? y
  | _, _ => false
  end.
(* from_p + sa_p[i], from_size - sa_p[i]: sa_p[i] outside [0, from_size] makes a
   pointer outside the origin and a bogus size (UB) *)
Definition sa_suffix (o : bytes) (sa : list Z) (i : Z) : res (Z * bytes) :=
  do p <- getz sa i;
  if (p <? 0) || (p >? zlen o) then UB else Ok (p, zdrop p o).
(* lib/bsdiff.c:50-101; result (length, position).  [tl] is to_p/to_size *)
Fixpoint search (fuel : nat) (o : bytes) (sa : list Z) (tl : bytes) (b e : Z) : res (Z * Z) :=
  match fuel with
  | O => Stuck
  | S k =>
      if e - b <? 2 then
        do (pb, sb) <- sa_suffix o sa b;
        do (pe, se) <- sa_suffix o sa e;
        let x := matchlen sb tl in
        let y := matchlen se tl in
        Ok (if x >? y then (x, pb) else (y, pe))
      else
        let x := b + (e - b) / 2 in
        do (_, sx) <- sa_suffix o sa x;
        if memcmp_lt sx tl then search k o sa tl x e else search k o sa tl b x
  end.

(* the fields of struct bpak_bsdiff_context that change; [bd_out]: buffers
   passed to compressor_write so far, in order *)
Record bdctx := mkBd {
  bd_scan : Z; bd_len : Z; bd_pos : Z; bd_lscan : Z; bd_lpos : Z; bd_loff : Z; bd_out : list bytes }.
(* after memset, lib/bsdiff.c:608 *)
Definition bd_init : bdctx := mkBd 0 0 0 0 0 0 [].

Section Gen.
Variables (o n : bytes).
(* lib/bsdiff.c:483-495; result: diff_size *)
Fixpoint fwd_loop (fuel : nat) (c : bdctx) (i s sf dsz : Z) : res Z :=
  if (bd_lscan c + i <? bd_scan c) && (bd_lpos c + i <? zlen o) then
    match fuel with
    | O => Stuck
    | S k =>
        do a <- getz o (bd_lpos c + i);
        do b <- getz n (bd_lscan c + i);
        let s := if a =? b then s + 1 else s in
        let i := i + 1 in
        if s * 2 - i >? sf * 2 - dsz then fwd_loop k c i s s i else fwd_loop k c i s sf dsz
    end
  else Ok dsz.
(* lib/bsdiff.c:503-513; result: lenb *)
Fixpoint bwd_loop (fuel : nat) (c : bdctx) (i s sb lenb : Z) : res Z :=
  if (bd_scan c >=? bd_lscan c + i) && (bd_pos c >=? i) then
    match fuel with
    | O => Stuck
    | S k =>
        do a <- getz o (bd_pos c - i);
        do b <- getz n (bd_scan c - i);
        let s := if a =? b then s + 1 else s in
        if s * 2 - i >? sb * 2 - lenb then bwd_loop k c (i + 1) s s i else bwd_loop k c (i + 1) s sb lenb
    end
  else Ok lenb.
(* lib/bsdiff.c:523-538; result: lens *)
Fixpoint overlap_loop (fuel : nat) (c : bdctx) (dsz lenb overlap i s ss lens : Z) : res Z :=
  if i <? overlap then
    match fuel with
    | O => Stuck
    | S k =>
        do a <- getz n (bd_lscan c + dsz - overlap + i);
        do b <- getz o (bd_lpos c + dsz - overlap + i);
        let s := if a =? b then s + 1 else s in
        do a2 <- getz n (bd_scan c - lenb + i);
        do b2 <- getz o (bd_pos c - lenb + i);
        let s := if a2 =? b2 then s - 1 else s in
        if s >? ss then overlap_loop k c dsz lenb overlap (i + 1) s s (i + 1)
        else overlap_loop k c dsz lenb overlap (i + 1) s ss lens
    end
  else Ok lens.
(* lib/bsdiff.c:571-575 *)
Fixpoint diff_bytes (cnt : nat) (np op : Z) : res bytes :=
  match cnt with
  | O => Ok []
  | S k =>
      do a <- getz n np;
      do b <- getz o op;
      do r <- diff_bytes k (np + 1) (op + 1);
      Ok (u8 (a - b) :: r)
  end.
(* lib/bsdiff.c:564-582.  BPAK_CHUNK_BUFFER_LENGTH is 4096; data_to_write is
   unsigned: a negative diff_size would be huge, the reads then leave the
   arrays (UB) *)
Fixpoint diff_chunks (fuel : nat) (c : bdctx) (i left : Z) : res (list bytes) :=
  if left =? 0 then Ok []
  else
    match fuel with
    | O => Stuck
    | S k =>
        let m := Z.min left 4096 in
        do b <- diff_bytes (Z.to_nat m) (bd_lscan c + i) (bd_lpos c + i);
        do r <- diff_chunks k c (i + m) (left - m);
        Ok (b :: r)
    end.
(* lib/bsdiff.c:458-597 *)
Definition write_diff (c : bdctx) : res bdctx :=
  do dsz0 <- fwd_loop (length n) c 0 0 0 0;
  do lenb0 <- (if bd_scan c <? zlen n then bwd_loop (length n) c 1 0 0 0 else Ok 0);
  let overlap := bd_lscan c + dsz0 - (bd_scan c - lenb0) in
  do (dsz, lenb) <-
    (if overlap >? 0 then
       do lens <- overlap_loop (length n) c dsz0 lenb0 overlap 0 0 0 0;
       Ok (dsz0 + (lens - overlap), lenb0 - lens)
     else Ok (dsz0, lenb0));
  let extra_pos := bd_lscan c + dsz in
  let extra_size := bd_scan c - lenb - extra_pos in
  do k1 <- offtout dsz;
  do k2 <- offtout extra_size;
  do k3 <- offtout (bd_pos c - lenb - (bd_lpos c + dsz));
  do chunks <- (if dsz <? 0 then UB else diff_chunks (length n) c 0 dsz);
  do extra <- (if extra_size =? 0 then Ok []
               else if (extra_size <? 0) || (extra_pos <? 0) || (extra_pos + extra_size >? zlen n) then UB
               else Ok [slice extra_pos extra_size n]);
  Ok (mkBd (bd_scan c) (bd_len c) (bd_pos c) (bd_scan c - lenb) (bd_pos c - lenb) (bd_pos c - bd_scan c)
        (bd_out c ++ [k1 ++ k2 ++ k3] ++ chunks ++ extra)).

Variable sa : list Z.
(* lib/bsdiff.c:681-687; result: from_score *)
Fixpoint score_loop (fuel : nat) (off scsc upto score : Z) : res Z :=
  if scsc <? upto then
    match fuel with
    | O => Stuck
    | S k =>
        do hit <- (if scsc + off <? zlen o then
                     do a <- getz o (scsc + off); do b <- getz n scsc; Ok (a =? b)
                   else Ok false);
        score_loop k off (scsc + 1) upto (if (hit : bool) then score + 1 else score)
    end
  else Ok score.
(* lib/bsdiff.c:669-699; result: the context and from_score.  A negative scan
   position (a wrapped match length) makes a pointer in front of the target *)
Fixpoint scan_loop (fuel : nat) (c : bdctx) (scsc score : Z) : res (bdctx * Z) :=
  if bd_scan c <? zlen n then
    match fuel with
    | O => Stuck
    | S k =>
        if bd_scan c <? 0 then UB else
        do (len, pos) <- search (S (length o)) o sa (zdrop (bd_scan c) n) 0 (zlen o);
        let c := mkBd (bd_scan c) len pos (bd_lscan c) (bd_lpos c) (bd_loff c) (bd_out c) in
        do score <- score_loop (length n) (bd_loff c) scsc (bd_scan c + len) score;
        let scsc := Z.max scsc (bd_scan c + len) in
        if ((len =? score) && negb (len =? 0)) || (len >? score + 8) then Ok (c, score)
        else
          do hit <- (if bd_scan c + bd_loff c <? zlen o then
                       do a <- getz o (bd_scan c + bd_loff c); do b <- getz n (bd_scan c); Ok (a =? b)
                     else Ok false);
          scan_loop k (mkBd (bd_scan c + 1) len pos (bd_lscan c) (bd_lpos c) (bd_loff c) (bd_out c)) scsc
            (if (hit : bool) then score - 1 else score)
    end
  else Ok (c, score).
(* lib/bsdiff.c:664-709 *)
Fixpoint main_loop (fuel : nat) (c : bdctx) : res bdctx :=
  if bd_scan c <? zlen n then
    match fuel with
    | O => Stuck
    | S k =>
        let c0 := mkBd (bd_scan c + bd_len c) (bd_len c) (bd_pos c) (bd_lscan c) (bd_lpos c) (bd_loff c) (bd_out c) in
        do (c1, score) <- scan_loop (length n) c0 (bd_scan c0) 0;
        do c2 <- (if negb (bd_len c1 =? score) || (bd_scan c1 =? zlen n) then write_diff c1 else Ok c1);
        main_loop k c2
    end
  else Ok c.
Definition bsdiff_chunks : res (list bytes) :=
  do c <- main_loop (2 * length n + 2) bd_init; Ok (bd_out c).
End Gen.
(* lib/bsdiff.c:378-401 and 660-717 without compression: each buffer is written
   behind the previous one; the number of bytes is returned *)
Fixpoint write_all (f : bytes) (off pos : Z) (l : list bytes) : bytes * Z :=
  match l with
  | [] => (f, pos)
  | b :: r => write_all (fwrite_at f (off + pos) b) off (pos + zlen b) r
  end.
Definition bsdiff_none (o n : bytes) (sa : list Z) (f : bytes) (off : Z) : res (bytes * Z) :=
  do l <- bsdiff_chunks o n sa; Ok (write_all f off 0 l).
