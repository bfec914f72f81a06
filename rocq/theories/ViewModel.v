(* ViewModel.v -- src/compare.c, src/show.c, src/generate.c after option parsing.
   Definitions only.  A printed table line is modelled by its mark and the
   fields printed; column widths and colours are not.  Files are their contents
   and do not change while the command runs. *)
From Coq Require Import String.
From Verif Require Import Base HeaderModel CrcModel HashModel VerifyModel PkgModel UtilModel KeystoreModel CliModel.
Local Open Scope Z_scope.
Local Open Scope list_scope.

(* ---- src/compare.c ---- *)
(* '=', '+', '-', '*' *)
Inductive mark := MSame | MPlus | MMinus | MStar.
Inductive cline :=
| LMeta (k : mark) (m : metah) (text : bytes)     (* :174-179 *)
| LPart (k : mark) (p : parth).                   (* :293-305 *)
(* printf("%s", buf): reads on behind a buffer without a terminator *)
Definition c_text (buf : bytes) : res bytes := match cstr buf with Some s => Ok s | None => UB end.
(* bpak_meta_to_string, its result ignored, and printing the buffer: the new
   content of the buffer and the text *)
Definition shown (h : header) (i : nat) (buf : bytes) : res (bytes * bytes) :=
  match meta_to_string h i buf with
  | (_, UB) => UB
  | (_, Stuck) => Stuck
  | (b, _) => do s <- c_text b; Ok (b, s)
  end.
(* a table that is being printed, the rest of the work and its result *)
Definition after {A} (ls : list cline) (x : list cline * A) : list cline * A := (ls ++ fst x, snd x).

(* :137-181 from slot [i] on; [l]: the slots from there; [buf]: string_output.
   For an entry that file 2 does not have, bpak_get_meta stores NULL in meta,
   and :155 reads meta->offset *)
Fixpoint cmp_metas1 (h1 h2 : header) (i : nat) (l : list metah) (buf : bytes) : list cline * res bytes :=
  match l with
  | [] => ([], Ok buf)
  | m :: r =>
      if m_id m =? 0 then cmp_metas1 h1 h2 (S i) r buf
      else
        match (do j <- (match get_meta h2 (m_id m) (m_ref m) with Ok j => Ok j | _ => UB end);
               do d1 <- meta_read h1 i 0 (m_size m);
               do d2 <- meta_read h2 j 0 (m_size m);
               do (buf1, s) <- shown h1 i buf;
               Ok (bytes_eqb d1 d2, buf1, s)) with
        | Ok (same, buf1, s) => after [LMeta (if (same : bool) then MSame else MStar) m s] (cmp_metas1 h1 h2 (S i) r buf1)
        | Err e => ([], Err e)
        | UB => ([], UB)
        | Stuck => ([], Stuck)
        end
  end.
(* :184-209; the second result is rc: what the last bpak_get_meta returned *)
Fixpoint cmp_metas2 (h1 h2 : header) (i : nat) (l : list metah) (buf : bytes) (rc : res unit) : list cline * res (res unit) :=
  match l with
  | [] => ([], Ok rc)
  | m :: r =>
      if m_id m =? 0 then cmp_metas2 h1 h2 (S i) r buf rc
      else match get_meta h1 (m_id m) (m_ref m) with
           | Ok _ => cmp_metas2 h1 h2 (S i) r buf (Ok tt)
           | _ =>
               match shown h2 i buf with
               | Ok (buf1, s) => after [LMeta MPlus m s] (cmp_metas2 h1 h2 (S i) r buf1 (Err E_NOT_FOUND))
               | Err e => ([], Err e)
               | UB => ([], UB)
               | Stuck => ([], Stuck)
               end
           end
  end.
(* :252-273: Ok true: the same bytes *)
Fixpoint cmp_data (fuel : nat) (f1 : bytes) (p1 : Z) (f2 : bytes) (p2 left : Z) : res bool :=
  if left =? 0 then Ok true
  else match fuel with
  | O => Stuck
  | S k =>
      let n := if left >? 4096 then 4096 else left in
      let c1 := fread_at f1 p1 n in
      let c2 := fread_at f2 p2 n in
      if negb (zlen c1 =? n) then Err E_READ_ERROR
      else if negb (zlen c2 =? n) then Err E_READ_ERROR
      else if bytes_eqb c1 c2 then cmp_data k f1 (p1 + n) f2 (p2 + n) (left - n)
      else Ok false
  end.
(* the fields compared by the memcmp of two part headers, :226 *)
Definition part_eqb (p q : parth) : bool :=
  (p_id p =? p_id q) && (p_size p =? p_size q) && (p_offset p =? p_offset q) && (p_transport_size p =? p_transport_size q) &&
  (p_pad_bytes p =? p_pad_bytes q) && (p_flags p =? p_flags q) && (p_pad p =? p_pad q).
(* :217-309.  Result: Ok rc: the loop is left (also by the break after a failed
   seek); Err: the command returns *)
Fixpoint cmp_parts1 (h1 h2 : header) (f1 f2 : bytes) (l : list parth) (rc : res unit) : list cline * res (res unit) :=
  match l with
  | [] => ([], Ok rc)
  | p :: r =>
      if p_id p =? 0 then cmp_parts1 h1 h2 f1 f2 r rc
      else match get_part h2 (p_id p) with
           | Ok j =>
               match nth_error (h_parts h2) j with
               | None => ([], UB)
               | Some p2 =>
                   if part_offset h1 p <? 0 then ([], Ok (Err E_SEEK_ERROR))
                   else if part_offset h2 p2 <? 0 then ([], Ok (Err E_SEEK_ERROR))
                   else
                     match cmp_data (Z.to_nat (part_size p / 4096 + 1)) f1 (part_offset h1 p) f2 (part_offset h2 p2) (part_size p) with
                     | Ok same => after [LPart (if same && part_eqb p2 p then MSame else MStar) p] (cmp_parts1 h1 h2 f1 f2 r (Ok tt))
                     | Err e => ([], Err e)
                     | UB => ([], UB)
                     | Stuck => ([], Stuck)
                     end
               end
           | _ => after [LPart MMinus p] (cmp_parts1 h1 h2 f1 f2 r (Err E_NOT_FOUND))
           end
  end.
(* :312-346 *)
Fixpoint cmp_parts2 (h1 : header) (l : list parth) (rc : res unit) : list cline * res unit :=
  match l with
  | [] => ([], rc)
  | p :: r =>
      if p_id p =? 0 then cmp_parts2 h1 r rc
      else match get_part h1 (p_id p) with
           | Ok _ => cmp_parts2 h1 r (Ok tt)
           | _ => after [LPart MMinus p] (cmp_parts2 h1 r (Err E_NOT_FOUND))
           end
  end.
(* the next step gets what the last one left, unless that failed *)
Definition next {A} (x : list cline * res A) (k : A -> list cline * res unit) : list cline * res unit :=
  match x with
  | (ls, Ok a) => after ls (k a)
  | (ls, Err e) => (ls, Err e)
  | (ls, UB) => (ls, UB)
  | (ls, Stuck) => (ls, Stuck)
  end.
(* :75-355; both files exist.  [junk]: the 64 bytes of string_output *)
Definition cli_compare (junk f1 f2 : bytes) : list cline * res unit :=
  let b1 := fread_at f1 0 HDR_SIZE in
  let b2 := fread_at f2 0 HDR_SIZE in
  if negb (zlen b1 =? HDR_SIZE) then ([], Err E_READ_ERROR)
  else if negb (zlen b2 =? HDR_SIZE) then ([], Err E_READ_ERROR)
  else
    let h1 := dec_header b1 in
    let h2 := dec_header b2 in
    match (do _ <- valid_header h1; valid_header h2) with
    | Ok _ =>
        next (cmp_metas1 h1 h2 0 (h_meta h1) junk) (fun buf =>
        next (cmp_metas2 h1 h2 0 (h_meta h2) buf (Ok tt)) (fun rc =>
        next (cmp_parts1 h1 h2 f1 f2 (h_parts h1) rc) (fun rc =>
        cmp_parts2 h1 (h_parts h2) rc)))
    | e => ([], e)
    end.

(* ---- src/show.c ---- *)
Inductive sline :=
| SText (s : bytes)                                  (* a line of text *)
| SRaw (b : bytes)                                   (* bytes as they are *)
| SFound (id size : Z)                               (* :141 *)
| SHead (hash sign key keystore : Z)                 (* :194-197 *)
| SMeta (m : metah) (text : bytes)                   (* :206-217 *)
| SPart (p : parth)                                  (* :238-249 *)
| SHash (header payload : bytes)                     (* :266-271 *)
| SWarn.                                             (* :276 *)
(* the options that select what is shown, in the order :113-192 looks at them;
   numbers and names already turned into ids *)
Inductive show_what :=
| ShowMeta (id : Z) (part : option Z)
| ShowPart (id : Z)
| ShowPartHash (id : Z)
| ShowBinHash
| ShowHash
| ShowAll.
(* :116-129 *)
Fixpoint show_meta_loop (h : header) (id : Z) (part : option Z) (i : nat) (l : list metah) (buf : bytes) : list sline * res unit :=
  match l with
  | [] => ([], Err E_MISSING_META_DATA)
  | m :: r =>
      if (m_id m =? id) && match part with Some p => p =? m_ref m | None => true end then
        match shown h i buf with
        | Ok (_, s) => (if zlen s =? 0 then [] else [SText s], Ok tt)
        | Err e => ([], Err e)
        | UB => ([], UB)
        | Stuck => ([], Stuck)
        end
      else show_meta_loop h id part (S i) r buf
  end.
(* :202-220 *)
Fixpoint show_metas (h : header) (i : nat) (l : list metah) (buf : bytes) : list sline * res unit :=
  match l with
  | [] => ([], Ok tt)
  | m :: r =>
      if m_id m =? 0 then show_metas h (S i) r buf
      else match shown h i buf with
           | Ok (buf1, s) => let (ls, x) := show_metas h (S i) r buf1 in (SMeta m s :: ls, x)
           | Err e => ([], Err e)
           | UB => ([], UB)
           | Stuck => ([], Stuck)
           end
  end.
(* bpak_pkg_update_hash into hash_output[64]: the hash_size bytes that count
   afterwards.  [junk]: what the 64 bytes hold before *)
Definition show_update (sha : hashfn) (p : pkg) (junk : bytes) : pkg * res bytes :=
  match pkg_update_hash sha p (Some 64) with
  | (p', Ok (Some d)) => (p', Ok d)
  | (p', Ok None) => (p', Ok junk)
  | (p', Err e) => (p', Err e)
  | (p', UB) => (p', UB)
  | (p', Stuck) => (p', Stuck)
  end.
(* bpak_bin2hex into hash_str, its result ignored, and printing the buffer *)
Definition hex_shown (d buf : bytes) : res (bytes * bytes) :=
  match bin2hex d buf with
  | (_, UB) => UB
  | (_, Stuck) => Stuck
  | (b, _) => do s <- c_text b; Ok (b, s)
  end.
(* :194-281; verbose output is not modelled *)
Definition show_all (sha : hashfn) (p : pkg) (junk hex : bytes) : list sline * res unit :=
  let h := pk_header p in
  let head := [SHead (h_hash_kind h) (h_signature_kind h) (h_key_id h) (h_keystore_id h)] in
  match show_metas h 0 (h_meta h) (zeros 128) with
  | (ms, Ok _) =>
      let ps := map SPart (filter (fun q => negb (p_id q =? 0)) (h_parts h)) in
      match show_update sha p junk with
      | (p', Ok d) =>
          match (do (b1, s1) <- hex_shown d hex;
                 do (_, s2) <- hex_shown (slice 0 (zlen d) (h_payload_hash (pk_header p'))) b1;
                 Ok (s1, s2)) with
          | Ok (s1, s2) =>
              (head ++ ms ++ ps ++ [SHash s1 s2] ++
                 (if bytes_eqb (h_payload_hash (pk_header p')) (h_payload_hash h) then [] else [SWarn]), Ok tt)
          | Err e => (head ++ ms ++ ps, Err e)
          | UB => (head ++ ms ++ ps, UB)
          | Stuck => (head ++ ms ++ ps, Stuck)
          end
      | (_, Err e) => (head ++ ms ++ ps, Err e)
      | (_, UB) => (head ++ ms ++ ps, UB)
      | (_, Stuck) => (head ++ ms ++ ps, Stuck)
      end
  | (ms, e) => (head ++ ms, e)
  end.
(* :95-302.  [junk]: hash_output[64], [hex]: hash_str[128] *)
Definition cli_show (sha : hashfn) (junk hex : bytes) (w : show_what) (f : bytes) : list sline * res unit :=
  match (do p <- snd (pkg_open sha false f); do _ <- valid_header (pk_header p); Ok p) with
  | Ok p =>
      let h := pk_header p in
      match w with
      | ShowMeta id part => show_meta_loop h id part 0 (h_meta h) (zeros 128)
      | ShowPart id =>
          match find (fun q => p_id q =? id) (h_parts h) with
          | Some q => ([SFound (p_id q) (p_size q)], Ok tt)
          | None => ([], Err E_NOT_FOUND)
          end
      | ShowPartHash id =>
          match (do d <- pkg_part_sha256 sha p id 64; do (_, s) <- hex_shown (slice 0 32 d) hex; Ok s) with
          | Ok s => ([SText s], Ok tt)
          | Err e => ([], Err e)
          | UB => ([], UB)
          | Stuck => ([], Stuck)
          end
      | ShowBinHash =>
          match show_update sha p junk with
          | (_, Ok d) => ([SRaw d], Ok tt)
          | (_, Err e) => ([], Err e)
          | (_, UB) => ([], UB)
          | (_, Stuck) => ([], Stuck)
          end
      | ShowHash =>                     (* :184: the result is not looked at *)
          match show_update sha p junk with
          | (_, Ok d) => ([SText (flat_map (hex_pad false 2) d)], Ok tt)
          | (_, Err _) => ([SText (flat_map (hex_pad false 2) junk)], Ok tt)
          | (_, UB) => ([], UB)
          | (_, Stuck) => ([], Stuck)
          end
      | ShowAll => show_all sha p junk hex
      end
  | Err e => ([], Err e)
  | UB => ([], UB)
  | Stuck => ([], Stuck)
  end.

(* ---- src/generate.c, generator "keystore" ---- *)
(* one struct bpak_key of the generated source: .id, .size, .kind, .data *)
Record gkey := mkGkey { gk_id : Z; gk_size : Z; gk_kind : Z; gk_data : bytes }.
Definition GEN_BUFFER : Z := 4096.
(* the kinds of the switch at :207-224; enum bpak_key_kind, include/bpak/bpak.h:142-152 *)
Definition public_kind (k : Z) : bool := (1 <=? k) && (k <=? 4).
(* :164-240.  The first component is what has been printed when the command
   stops; the beginning of a key that fails is not modelled *)
Fixpoint gen_keys (parse : bytes -> res key) (f : bytes) (l : list parth) : list gkey * res unit :=
  match l with
  | [] => ([], Ok tt)
  | p :: r =>
      if p_id p =? 0 then gen_keys parse f r
      else if s64 (p_offset p) <? 0 then ([], Err E_SEEK_ERROR)
      else if p_size p >? GEN_BUFFER then ([], Err E_BUFFER_TOO_SMALL)
      else
        let d := fread_at f (p_offset p) (p_size p) in
        if negb (zlen d =? p_size p) then ([], Err E_READ_ERROR)
        else match parse d with
             | Ok k => if public_kind (k_kind k) then
                         let (ls, x) := gen_keys parse f r in (mkGkey (p_id p) (p_size p) (k_kind k) (k_data k) :: ls, x)
                       else ([], Err E_UNSUPPORTED_KEY)
             | Err e => ([], Err e)
             | UB => ([], UB)
             | Stuck => ([], Stuck)
             end
  end.
(* :96-276: the keys of the source, and the id of the keystore it declares *)
Definition cli_generate (parse : bytes -> res key) (f : bytes) : list gkey * res Z :=
  let b := fread_at f 0 HDR_SIZE in
  if negb (zlen b =? HDR_SIZE) then ([], Err E_READ_ERROR)
  else
    let h := dec_header b in
    match (do _ <- valid_header h;
           do _ <- get_meta h (bpak_id (bytes_of "bpak-package"%string)) 0;
           get_meta h (bpak_id (bytes_of "keystore-provider-id"%string)) 0) with
    | Ok i =>
        match gen_keys parse f (h_parts h) with
        | (ks, Ok _) =>
            match meta_read h i 0 4 with
            | Ok v => (ks, Ok (unle v))
            | Err e => (ks, Err e)
            | UB => (ks, UB)
            | Stuck => (ks, Stuck)
            end
        | (ks, Err e) => (ks, Err e)
        | (ks, UB) => (ks, UB)
        | (ks, Stuck) => (ks, Stuck)
        end
    | Err e => ([], Err e)
    | UB => ([], UB)
    | Stuck => ([], Stuck)
    end.
