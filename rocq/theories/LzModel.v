(* LzModel.v -- LZMA-compressed patches: the LZMA branches of lib/bsdiff.c and
   lib/bspatch.c (a build with BPAK_CONFIG_LZMA == 1).  Definitions only.
   liblzma itself is not part of /repo: it is a parameter of the model.
   Callbacks as in BsdiffModel/BspatchModel: writes succeed. *)
From Verif Require Import Base BspatchModel BsdiffModel.

(* results of lzma_code: LZMA_OK, LZMA_STREAM_END, anything else *)
Inductive lzret := LzOk | LzEnd | LzErr.
(* an lzma_stream after lzma_stream_encoder (lib/bsdiff.c:363) or
   lzma_stream_decoder (lib/bspatch.c:223).  [lz_code s b n fin]: lzma_code with
   avail_in = |b|, next_in = b, avail_out = n and action LZMA_FINISH if [fin],
   LZMA_RUN otherwise; the result is the stream, the number of bytes taken, the
   bytes produced and the return value.  [lz_calls] bounds the number of calls
   that the loops below may need; it plays no role besides *)
Record lzstream := mkLz {
  lz_st : Type;
  lz_init : lz_st;
  lz_code : lz_st -> bytes -> Z -> bool -> lz_st * Z * bytes * lzret;
  lz_calls : lz_st -> Z -> bool -> nat }.
(* what bpak links against: encoder and decoder *)
Record lzlib := mkLib { lz_enc : lzstream; lz_dec : lzstream }.

(* ---- lib/bsdiff.c; output buffer BPAK_CHUNK_BUFFER_LENGTH = 4096 ---- *)
Section Enc.
Variable L : lzstream.
(* lib/bsdiff.c:148-184: the stream and the buffers written to the output *)
Fixpoint lzc_loop (fuel : nat) (s : lz_st L) (b : bytes) : res (lz_st L * list bytes) :=
  if zlen b >? 0 then
    match fuel with
    | O => Stuck
    | S k =>
        match lz_code L s b 4096 false with
        | (s1, n, out, LzOk) =>
            let w := if zlen out >? 0 then [out] else [] in
            do (s2, r) <- lzc_loop k s1 (zdrop n b); Ok (s2, w ++ r)
        | _ => Err E_COMPRESSOR_ERROR
        end
    end
  else Ok (s, []).
(* lib/bsdiff.c:139-187 *)
Definition lzc_write (s : lz_st L) (b : bytes) : res (lz_st L * list bytes) :=
  lzc_loop (S (lz_calls L s (zlen b) false)) s b.
(* lib/bsdiff.c:189-232 *)
Fixpoint lzc_final_loop (fuel : nat) (s : lz_st L) : res (list bytes) :=
  match fuel with
  | O => Stuck
  | S k =>
      match lz_code L s [] 4096 true with
      | (_, _, _, LzErr) => Err E_COMPRESSOR_ERROR
      | (s1, _, out, r) =>
          let w := if zlen out >? 0 then [out] else [] in
          match r with
          | LzEnd => Ok w
          | _ => do l <- lzc_final_loop k s1; Ok (w ++ l)
          end
      end
  end.
Definition lzc_final (s : lz_st L) : res (list bytes) := lzc_final_loop (S (lz_calls L s 0 true)) s.
Fixpoint lzc_writes (s : lz_st L) (l : list bytes) : res (lz_st L * list bytes) :=
  match l with
  | [] => Ok (s, [])
  | b :: r => do (s1, w) <- lzc_write s b; do (s2, w2) <- lzc_writes s1 r; Ok (s2, w ++ w2)
  end.
(* lib/bsdiff.c:660-717 with compression BPAK_COMPRESSION_LZMA: output file and
   length (output_pos).  Initialisation is taken to succeed *)
Definition bsdiff_lz (o n : bytes) (sa : list Z) (f : bytes) (off : Z) : res (bytes * Z) :=
  do l <- bsdiff_chunks o n sa;
  do (s, w) <- lzc_writes (lz_init L) l;
  do w2 <- lzc_final s;
  Ok (write_all f off 0 (w ++ w2)).
End Enc.

(* ---- lib/bspatch.c; output buffer BUFSIZ = 8192 ---- *)
Section Dec.
Variable L : lzstream.
(* input_position is not used with LZMA *)
Record lzpctx := mkLp { lp_bs : bsctx; lp_s : lz_st L }.
Definition lzp_init : lzpctx := mkLp bs_init (lz_init L).
(* lib/bspatch.c:281-308 *)
Fixpoint lzp_loop (o : bytes) (ooff woff blen : Z) (fuel : nat) (fin : bool) (h : lzpctx) (f b : bytes) : lzpctx * bytes * res unit :=
  if (zlen b >? 0) || fin then
    match fuel with
    | O => (h, f, Stuck)
    | S k =>
        let '(s1, n, out, r) := lz_code L (lp_s h) b 8192 fin in
        match (if zlen out >? 0 then bspatch_write o ooff woff blen (lp_bs h) f out else (lp_bs h, f, Ok tt)) with
        | (c1, f1, Ok _) =>
            match r with
            | LzOk => lzp_loop o ooff woff blen k fin (mkLp c1 s1) f1 (zdrop n b)
            | LzEnd => (mkLp c1 s1, f1, Ok tt)
            | LzErr => (mkLp c1 s1, f1, Err E_DECOMPRESSOR_ERROR)
            end
        | (c1, f1, e) => (mkLp c1 s1, f1, e)
        end
    end
  else (h, f, Ok tt).
(* lib/bspatch.c:258-313: length 0 means LZMA_FINISH *)
Definition lzp_write (o : bytes) (ooff woff blen : Z) (h : lzpctx) (f b : bytes) : lzpctx * bytes * res unit :=
  let fin := zlen b =? 0 in
  lzp_loop o ooff woff blen (S (lz_calls L (lp_s h) (zlen b) fin)) fin h f b.
(* lib/bspatch.c:439-463 with LZMA; the output file may still grow *)
Definition lzp_final (o : bytes) (ooff woff blen : Z) (h : lzpctx) (f : bytes) : lzpctx * bytes * res Z :=
  match bs_state (lp_bs h) with
  | BError => (h, f, Err (-1))
  | _ =>
      match lzp_write o ooff woff blen h f [] with
      | (h1, f1, Ok _) => (h1, f1, Ok (bs_wpos (lp_bs h1)))
      | (h1, f1, Err e) => (h1, f1, Err e)
      | (h1, f1, UB) => (h1, f1, UB)
      | (h1, f1, Stuck) => (h1, f1, Stuck)
      end
  end.
(* a caller feeding chunks until the first error *)
Fixpoint lzp_chunks (o : bytes) (ooff woff blen : Z) (h : lzpctx) (f : bytes) (l : list bytes) : lzpctx * bytes * res unit :=
  match l with
  | [] => (h, f, Ok tt)
  | b :: r =>
      match lzp_write o ooff woff blen h f b with
      | (h1, f1, Ok _) => lzp_chunks o ooff woff blen h1 f1 r
      | x => x
      end
  end.
(* chunks and then the final call; the return value of the first that fails *)
Definition lzp_all (o : bytes) (ooff woff blen : Z) (f : bytes) (l : list bytes) : bytes * res Z :=
  match lzp_chunks o ooff woff blen lzp_init f l with
  | (h1, f1, Ok _) => match lzp_final o ooff woff blen h1 f1 with (_, f2, r) => (f2, r) end
  | (_, f1, Err e) => (f1, Err e)
  | (_, f1, UB) => (f1, UB)
  | (_, f1, Stuck) => (f1, Stuck)
  end.
End Dec.

(* how bpak was built: BPAK_CONFIG_LZMA, and the library it is linked with *)
Record build := mkBuild { b_lzma : bool; b_lib : lzlib }.
