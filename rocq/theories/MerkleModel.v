(* MerkleModel.v -- lib/merkle.c.  Definitions only.
   off_t arithmetic is done in Z (no wrap at 2^63: every offset in use is
   below 2^62).  The callbacks wr/rd are an abstract store: a negative return
   is [Err], a short count is the error every caller in lib/merkle.c turns it
   into, and memory callbacks may be [UB]. *)
From Verif Require Import Base HeaderModel HashModel.

(* include/bpak/merkle.h:21-26 *)
Definition MBLOCK : Z := 4096.
Definition MAX_LEVELS : Z := 4.
Definition MHASH : Z := 32.

Record io (S : Type) := mkIo {
  io_wr : S -> Z -> bytes -> res S;      (* wr(offset, buf, size, priv) *)
  io_rd : S -> Z -> Z -> res bytes }.    (* rd(offset, buf, size, priv) *)
Arguments mkIo {S}. Arguments io_wr {S}. Arguments io_rd {S}.

(* lib/merkle.c:26-28 = 72-74: length of the level above one of length [n] *)
Definition next_level (n : Z) : Z :=
  let l := Z.shiftr n 12 * 32 in
  l + Z.land (u64 (Z.lnot l + 1)) (MBLOCK - 1).

(* lib/merkle.c:25-37; the loop exits at the fifth iteration at the latest *)
Fixpoint compute_size_loop (fuel : nat) (level len result : Z) : res Z :=
  match fuel with
  | O => Stuck
  | S k =>
      let len := next_level len in
      let result := result + len in
      let level := level + 1 in
      if MAX_LEVELS <? level then Err E_NO_SPACE_LEFT
      else if len =? MBLOCK then Ok result
      else compute_size_loop k level len result
  end.
(* lib/merkle.c:15-38 *)
Definition merkle_compute_size (n : Z) : res Z :=
  if negb (n mod MBLOCK =? 0) then Err E_BAD_ALIGNMENT
  else compute_size_loop 5 0 n 0.

(* include/bpak/merkle.h:38-55.  [mk_salt] stands for salt[0..salt_length);
   [mk_running] for running_hash. *)
Record mctx := mkMctx {
  mk_running : bytes;
  mk_buffer : bytes;
  mk_level_length : list Z;
  mk_level_offset : list Z;
  mk_levels : Z;
  mk_chunk_counter : Z;
  mk_block_counter : Z;
  mk_input_length : Z;
  mk_tree_length : Z;
  mk_salt : bytes;
  mk_finished : bool;
  mk_offset : Z }.

(* lib/merkle.c:71-82: result lengths, total, level count; the array writes
   at :75 are at indices 0..3 *)
Fixpoint level_loop (fuel : nat) (level len : Z) (lens : list Z) (total : Z) : list Z * Z * res Z :=
  match fuel with
  | O => (lens, total, Stuck)
  | S k =>
      let len := next_level len in
      let lens := list_upd (Z.to_nat level) len lens in
      let total := total + len in
      let level := level + 1 in
      if MAX_LEVELS <=? level then (lens, total, Err E_NO_SPACE_LEFT)
      else if len =? MBLOCK then (lens, total, Ok level)
      else level_loop k level len lens total
  end.
(* lib/merkle.c:87-97 *)
Fixpoint offset_loop (n : nat) (i : nat) (pos : Z) (lens offs : list Z) : list Z :=
  match n with
  | O => offs
  | S k =>
      let pos := pos - nth i lens 0 in
      offset_loop k (S i) pos lens (list_upd i pos offs)
  end.
(* lib/merkle.c:102-115; [zero_fill_bytes] is a size_t and is decremented by
   32 without a check, so a tree length that is not a multiple of 32 would not
   terminate *)
Fixpoint zero_fill {S} (fuel : nat) (d : io S) (s : S) (pos left : Z) : res S :=
  if left =? 0 then Ok s
  else match fuel with
  | O => Stuck
  | Datatypes.S k =>
      do s' <- io_wr d s pos (zeros MHASH);
      zero_fill k d s' (pos + MHASH) (u64 (left - MHASH))
  end.
(* lib/merkle.c:40-120.  On failure the context keeps no_of_levels = 0. *)
Definition merkle_init {S} (d : io S) (s : S) (n : Z) (salt : bytes) (offset : Z)
    (zero : bool) : mctx * res S :=
  let c0 := mkMctx [] (zeros MHASH) (repeat 0 4) (repeat 0 4) 0 0 MBLOCK n 0 [] false offset in
  if negb (n mod MBLOCK =? 0) then (c0, Err E_BAD_ALIGNMENT)
  else if 32 <? zlen salt then (c0, Err E_NO_SPACE_LEFT)
  else
    let '(lens, total, r) := level_loop 5 0 n (repeat 0 4) 0 in
    match r with
    | Ok levels =>
        let offs := offset_loop (Z.to_nat levels) 0 total lens (repeat 0 4) in
        let c := mkMctx [] (zeros MHASH) lens offs levels 0 MBLOCK n total salt false offset in
        (c, if zero then zero_fill (Z.to_nat (total / MHASH + 1)) d s offset total else Ok s)
    | Err e => (mkMctx [] (zeros MHASH) lens (repeat 0 4) 0 0 MBLOCK n total salt false offset, Err e)
    | UB => (c0, UB)
    | Stuck => (c0, Stuck)
    end.
(* lib/merkle.c:122-125 *)
Definition merkle_get_size (c : mctx) : Z := mk_tree_length c.

Definition mk_progress (c : mctx) (running : bytes) (block : Z) : mctx :=
  mkMctx running (mk_buffer c) (mk_level_length c) (mk_level_offset c) (mk_levels c)
    (mk_chunk_counter c) block (mk_input_length c) (mk_tree_length c) (mk_salt c)
    (mk_finished c) (mk_offset c).
Definition mk_block_done (c : mctx) (digest : bytes) (finished : bool) : mctx :=
  mkMctx [] digest (mk_level_length c) (mk_level_offset c) (mk_levels c)
    (mk_chunk_counter c + MHASH) MBLOCK (mk_input_length c) (mk_tree_length c) (mk_salt c)
    finished (mk_offset c).

(* lib/merkle.c:135-191 *)
Fixpoint write_loop {S} (sha : hashfn) (d : io S) (fuel : nat) (c : mctx) (s : S) (data : bytes)
    : res (mctx * S) :=
  if zlen data =? 0 then Ok (c, s)
  else match fuel with
  | O => Stuck
  | Datatypes.S k =>
      let running := if mk_block_counter c =? MBLOCK then mk_salt c else mk_running c in
      let n := Z.min (mk_block_counter c) (zlen data) in
      let running := running ++ ztake n data in
      let left := mk_block_counter c - n in
      if left =? 0 then
        let digest := sha HASH_SHA256 running in
        do s' <- io_wr d s (mk_offset c + (mk_chunk_counter c + nth 0 (mk_level_offset c) 0)) digest;
        if mk_input_length c =? MBLOCK then Ok (mk_block_done c digest true, s')
        else write_loop sha d k (mk_block_done c digest (mk_finished c)) s' (zdrop n data)
      else write_loop sha d k (mk_progress c running left) s (zdrop n data)
  end.
(* lib/merkle.c:127-197.  Every iteration consumes at least one byte. *)
Definition merkle_write_chunk {S} sha (d : io S) (c : mctx) (s : S) (data : bytes) : res (mctx * S) :=
  write_loop sha d (length data) c s data.

(* lib/merkle.c:235-256 and 297-318: [k] reads of 32 bytes each *)
Fixpoint read_pieces {S} (d : io S) (k : nat) (s : S) (pos : Z) (acc : bytes) : res bytes :=
  match k with
  | O => Ok acc
  | Datatypes.S k => do b <- io_rd d s pos MHASH; read_pieces d k s (pos + MHASH) (acc ++ b)
  end.
(* lib/merkle.c:221-279: one level *)
Fixpoint finish_level {S} (sha : hashfn) (d : io S) (n : nat) (s : S) (salt : bytes) (src dst : Z)
    : res S :=
  match n with
  | O => Ok s
  | Datatypes.S k =>
      do m <- read_pieces d 128 s src salt;
      do s' <- io_wr d s dst (sha HASH_SHA256 m);
      finish_level sha d k s' salt (src + MBLOCK) (dst + MHASH)
  end.
(* lib/merkle.c:216-280 *)
Fixpoint finish_levels {S} (sha : hashfn) (d : io S) (n : nat) (i : nat) (c : mctx) (s : S) : res S :=
  match n with
  | O => Ok s
  | Datatypes.S k =>
      do s' <- finish_level sha d (Z.to_nat (nth (i - 1) (mk_level_length c) 0 / MBLOCK)) s (mk_salt c)
                (mk_offset c + nth (i - 1) (mk_level_offset c) 0)
                (mk_offset c + nth i (mk_level_offset c) 0);
      finish_levels sha d k (Datatypes.S i) c s'
  end.
(* lib/merkle.c:199-326: store and root hash.  With no_of_levels = 0 the
   accesses at :295-296 are level_length[UINT_MAX].  The last read loop
   (:297-318) is modelled for level lengths that are multiples of 32 *)
Definition merkle_finish {S} (sha : hashfn) (d : io S) (c : mctx) (s : S) : res (S * bytes) :=
  if mk_finished c then Ok (s, mk_buffer c)
  else
    do s' <- finish_levels sha d (Z.to_nat (mk_levels c - 1)) 1 c s;
    if mk_levels c =? 0 then UB
    else
      let top := Z.to_nat (mk_levels c - 1) in
      do m <- read_pieces d (Z.to_nat (nth top (mk_level_length c) 0 / MHASH)) s'
                (mk_offset c + nth top (mk_level_offset c) 0) (mk_salt c);
      Ok (s', sha HASH_SHA256 m).

(* a whole run: init, any number of write_chunk calls, finish *)
Fixpoint write_chunks {S} sha (d : io S) (c : mctx) (s : S) (chunks : list bytes) : res (mctx * S) :=
  match chunks with
  | [] => Ok (c, s)
  | b :: r => do x <- merkle_write_chunk sha d c s b; let '(c', s') := x in write_chunks sha d c' s' r
  end.

(* lib/pkg_create.c:25-37: the tree is built in a heap buffer; accesses
   outside it are undefined *)
Definition mem_io : io bytes :=
  mkIo (fun s o b => if (0 <=? o) && (o + zlen b <=? zlen s) then Ok (splice o b s) else UB)
       (fun s o n => if (0 <=? o) && (o + n <=? zlen s) then Ok (slice o n s) else UB).
