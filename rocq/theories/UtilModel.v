(* UtilModel.v -- lib/utils.c, ext/uuid/ and the number formats of printf they
   use.  Definitions only. *)
From Coq Require Import String Ascii.
From Verif Require Import Base HeaderModel CrcModel.
Local Open Scope Z_scope.

(* buf[n] = c for a buffer [buf] *)
Definition poke (buf : bytes) (n c : Z) : res bytes :=
  if (0 <=? n) && (n <? zlen buf) then Ok (splice n [c] buf) else UB.

(* ---- lib/utils.c:21-47 ---- *)
(* :31, :38 *)
Definition hexc (b : Z) : Z := if b >? 9 then 97 + (b - 10) else 48 + b.
(* [buf]: the buffer, buf_sz bytes long *)
Fixpoint bin2hex_loop (data : bytes) (n : Z) (buf : bytes) : bytes * res Z :=
  match data with
  | [] => (buf, Ok n)
  | b :: r =>
      match poke buf n (hexc ((b / 16) mod 16)) with
      | Ok buf1 =>
          if n + 1 >? zlen buf then (buf1, Err (-1))
          else match poke buf1 (n + 1) (hexc (b mod 16)) with
               | Ok buf2 => if n + 2 >? zlen buf then (buf2, Err (-1)) else bin2hex_loop r (n + 2) buf2
               | _ => (buf1, UB)
               end
      | _ => (buf, UB)
      end
  end.
Definition bin2hex (data buf : bytes) : bytes * res unit :=
  match bin2hex_loop data 0 buf with
  | (buf1, Ok n) => match poke buf1 n 0 with Ok buf2 => (buf2, Ok tt) | _ => (buf1, UB) end
  | (buf1, Err e) => (buf1, Err e)
  | (buf1, UB) => (buf1, UB)
  | (buf1, Stuck) => (buf1, Stuck)
  end.

(* ---- printf ---- *)
(* digits of %x / %X, most significant first.  [fuel] 16 covers 64 bits *)
Definition hexd (upper : bool) (d : Z) : Z := if d <? 10 then 48 + d else (if upper then 55 else 87) + d.
Fixpoint hex_min (upper : bool) (fuel : nat) (v : Z) : bytes :=
  match fuel with
  | O => []
  | S k => (if v <? 16 then [] else hex_min upper k (v / 16)) ++ [hexd upper (v mod 16)]
  end.
(* %0<w>x and %<w>.<w>x *)
Definition hex_pad (upper : bool) (w v : Z) : bytes :=
  let s := hex_min upper 16 v in repeat 48 (Z.to_nat (w - zlen s)) ++ s.
(* snprintf(buf, size, ...) of the text [s] into a buffer of [size] bytes *)
Definition snprintf (buf s : bytes) : bytes :=
  if zlen buf =? 0 then buf else splice 0 (ztake (zlen buf - 1) s ++ [0]) buf.

(* ---- ext/uuid ---- *)
(* uuidP.h:46-52 *)
Record uuid := mkUuid { time_low : Z; time_mid : Z; time_hi : Z; clock_seq : Z; node : bytes }.
(* unpack.c:38-62; [in_]: 16 bytes *)
Definition uuid_unpack (in_ : bytes) : uuid :=
  let b i := nth i in_ 0 in
  mkUuid (u32 (Z.lor (Z.shiftl (u32 (Z.lor (Z.shiftl (Z.lor (Z.shiftl (b 0%nat) 8) (b 1%nat)) 8) (b 2%nat))) 8) (b 3%nat)))
         (u16 (Z.lor (Z.shiftl (b 4%nat) 8) (b 5%nat)))
         (u16 (Z.lor (Z.shiftl (b 6%nat) 8) (b 7%nat)))
         (u16 (Z.lor (Z.shiftl (b 8%nat) 8) (b 9%nat)))
         (slice 10 6 in_).
(* pack.c:38-68 *)
Definition uuid_pack (u : uuid) : bytes :=
  [u8 (Z.shiftr (time_low u) 24); u8 (Z.shiftr (time_low u) 16); u8 (Z.shiftr (time_low u) 8); u8 (time_low u);
   u8 (Z.shiftr (time_mid u) 8); u8 (time_mid u);
   u8 (Z.shiftr (time_hi u) 8); u8 (time_hi u);
   u8 (Z.shiftr (clock_seq u) 8); u8 (clock_seq u)] ++ ztake 6 (node u).
(* unparse.c:51-76: the text, without the terminating zero *)
Definition dash : Z := 45.
Definition uuid_unparse_x (upper : bool) (in_ : bytes) : bytes :=
  let u := uuid_unpack in_ in
  hex_pad upper 8 (time_low u) ++ [dash] ++ hex_pad upper 4 (time_mid u) ++ [dash] ++ hex_pad upper 4 (time_hi u) ++ [dash] ++
  hex_pad upper 2 (Z.shiftr (clock_seq u) 8) ++ hex_pad upper 2 (Z.land (clock_seq u) 0xff) ++ [dash] ++
  flat_map (hex_pad upper 2) (ztake 6 (node u)).
(* ctype.h isxdigit in the C locale; bytes from 128 (negative chars) are not
   hex digits *)
Definition isxdigit (c : Z) : bool :=
  ((48 <=? c) && (c <=? 57)) || ((65 <=? c) && (c <=? 70)) || ((97 <=? c) && (c <=? 102)).
Definition xvalue (c : Z) : Z := if c <=? 57 then c - 48 else if c <=? 70 then c - 55 else c - 87.
(* strtoul(s, NULL, 16) on a string that starts with a hex digit other than
   "0x": white space, signs and the prefix are not modelled, uuid_parse has
   excluded them when it gets there.  unsigned long is 64 bits; no overflow
   for the at most 8 digits used *)
Fixpoint strtoul16 (acc : Z) (s : bytes) : Z :=
  match s with
  | [] => acc
  | c :: r => if isxdigit c then strtoul16 (acc * 16 + xvalue c) r else acc
  end.
(* parse.c:51-64.  [s]: the characters from position [i] on, with the
   terminating zero *)
Fixpoint parse_check (i : Z) (s : bytes) : bool :=
  match s with
  | [] => true
  | c :: r =>
      if (i =? 8) || (i =? 13) || (i =? 18) || (i =? 23) then (c =? dash) && parse_check (i + 1) r
      else if (i =? 36) && (c =? 0) then parse_check (i + 1) r
      else isxdigit c && parse_check (i + 1) r
  end.
(* parse.c:42-79; [s]: the string without its terminating zero *)
Definition uuid_parse (s : bytes) : res bytes :=
  if negb (zlen s =? 36) then Err (-1)
  else if negb (parse_check 0 (s ++ [0])) then Err (-1)
  else
    let pair i := u8 (strtoul16 0 (slice (24 + 2 * i) 2 s)) in
    Ok (uuid_pack (mkUuid (u32 (strtoul16 0 s)) (u16 (strtoul16 0 (zdrop 9 s))) (u16 (strtoul16 0 (zdrop 14 s)))
                          (u16 (strtoul16 0 (zdrop 19 s))) [pair 0; pair 1; pair 2; pair 3; pair 4; pair 5])).
(* compare.c:42-54; memcmp: only its sign is specified, -1, 0, 1 here *)
Fixpoint memcmp (a b : bytes) : Z :=
  match a, b with
  | x :: r, y :: s => if x =? y then memcmp r s else if x <? y then -1 else 1
  | _, _ => 0
  end.
Definition uuid_compare (a b : bytes) : Z :=
  let u := uuid_unpack a in
  let v := uuid_unpack b in
  let cmp x y k := if x =? y then k else if x <? y then -1 else 1 in
  cmp (time_low u) (time_low v) (cmp (time_mid u) (time_mid v) (cmp (time_hi u) (time_hi v)
    (cmp (clock_seq u) (clock_seq v) (memcmp (ztake 6 (node u)) (ztake 6 (node v)))))).
(* isnull.c:38-47 *)
Definition uuid_is_null (a : bytes) : bool := forallb (fun x => x =? 0) (ztake 16 a).

(* lib/utils.c:49-57; [size] is the length of [buf].  sprintf at unparse.c:56
   writes text and terminator without looking at the size *)
Definition uuid_to_string (data buf : bytes) : bytes * res unit :=
  if zlen buf <? 37 then (buf, Err E_SIZE_ERROR)
  else
    let s := uuid_unparse_x false data ++ [0] in
    if zlen s >? zlen buf then (buf, UB) else (splice 0 s buf, Ok tt).

(* lib/utils.c:59-109; [i]: index of the entry.  The results of
   bpak_uuid_to_string and bpak_bin2hex are dropped by the code *)
Definition drop_result (x : bytes * res unit) : bytes * res unit :=
  match x with
  | (b, Ok _) => (b, Ok tt)
  | (b, Err _) => (b, Ok tt)
  | (b, UB) => (b, UB)
  | (b, Stuck) => (b, Stuck)
  end.
Definition with_bytes (r : res bytes) (buf : bytes) (k : bytes -> bytes * res unit) : bytes * res unit :=
  match r with Ok b => k b | _ => (buf, UB) end.
Definition meta_to_string (h : header) (i : nat) (buf : bytes) : bytes * res unit :=
  match nth_error (h_meta h) i with
  | None => (buf, UB)
  | Some m =>
      let rd o n k := with_bytes (meta_read h i o n) buf k in
      if (m_id m =? ID_BPAK_KEY_ID) || (m_id m =? ID_BPAK_KEY_STORE) then
        rd 0 4 (fun b => (snprintf buf (hex_min false 16 (unle b)), Ok tt))
      else if m_id m =? ID_BPAK_PACKAGE then rd 0 16 (fun b => drop_result (uuid_to_string b buf))
      else if m_id m =? ID_BPAK_TRANSPORT then
        rd 0 4 (fun b => rd 4 4 (fun c =>
          (snprintf buf (bytes_of "Encode: "%string ++ hex_pad false 8 (unle b) ++ bytes_of ", Decode: "%string ++ hex_pad false 8 (unle c)), Ok tt)))
      else if (m_id m =? ID_MERKLE_SALT) || (m_id m =? ID_MERKLE_ROOT_HASH) then
        rd 0 32 (fun b => drop_result (bin2hex b buf))
      else if m_id m =? ID_PB_LOAD_ADDR then
        rd 0 8 (fun b => (snprintf buf (bytes_of "Entry: 0x"%string ++ hex_pad true 8 (unle b)), Ok tt))
      else if m_id m =? ID_BPAK_VERSION then
        if m_size m >? zlen buf then (buf, Err E_SIZE_ERROR)
        else rd 0 (m_size m) (fun b => (splice 0 b buf, Ok tt))
      else if m_id m =? ID_KEYSTORE_PROVIDER_ID then
        rd 0 4 (fun b => (snprintf buf (bytes_of "0x"%string ++ hex_min false 16 (unle b)), Ok tt))
      else (if zlen buf =? 0 then buf else splice 0 [0] buf, Ok tt)
  end.

(* lib/utils.c:111-131: CrcModel.v *)
