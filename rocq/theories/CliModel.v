(* CliModel.v -- the bpak command line tool, src/*.c.  Definitions only.
   Every command is a function of the content of the package file and of the
   parsed options (getopt itself, messages on the terminal and verbosity are
   not modelled); it returns the new content of the package file, the content
   of the output file or of stdout if it writes one, and the return value.
   Files given as inputs are their content, [None] when fopen fails. *)
From Coq Require Import String.
From Verif Require Import Base HeaderModel CrcModel HashModel MerkleModel VerifyModel PkgModel UtilModel.
Local Open Scope Z_scope.

(* ---- C library: strtol, strtoul ---------------------------------------- *)
(* isspace in the C locale *)
Definition isspace (c : Z) : bool := (c =? 32) || ((9 <=? c) && (c <=? 13)).
Fixpoint skip_space (s : bytes) : bytes :=
  match s with [] => [] | c :: r => if isspace c then skip_space r else s end.
(* value of a digit, 36 for anything else *)
Definition digit_value (c : Z) : Z :=
  if (48 <=? c) && (c <=? 57) then c - 48
  else if (65 <=? c) && (c <=? 90) then c - 55
  else if (97 <=? c) && (c <=? 122) then c - 87 else 36.
(* longest run of digits: number of digits and value *)
Fixpoint digits (base : Z) (n acc : Z) (s : bytes) : Z * Z :=
  match s with
  | c :: r => if digit_value c <? base then digits base (n + 1) (acc * base + digit_value c) r else (n, acc)
  | [] => (n, acc)
  end.
(* "0x" or "0X" followed by a hexadecimal digit *)
Definition hex_prefix (s : bytes) : bool :=
  match s with
  | a :: b :: c :: _ => (a =? 48) && ((b =? 120) || (b =? 88)) && (digit_value c <? 16)
  | _ => false
  end.
(* sign and magnitude; None: no conversion (endptr == nptr).  Text after the
   digits is ignored, as the callers do *)
Definition strto (base : Z) (s : bytes) : option (bool * Z) :=
  let t := skip_space s in
  let '(neg, u) := match t with
                   | c :: r => if c =? 45 then (true, r) else if c =? 43 then (false, r) else (false, t)
                   | [] => (false, t)
                   end in
  let '(b, v) := if hex_prefix u && ((base =? 0) || (base =? 16)) then (16, zdrop 2 u)
                 else if base =? 0 then (match u with c :: _ => if c =? 48 then 8 else 10 | [] => 10 end, u)
                 else (base, u) in
  let '(n, m) := digits b 0 0 v in
  if n =? 0 then None else Some (neg, m).
(* strtol(s, &endptr, 0) with 64-bit long; None: endptr == s or ERANGE *)
Definition strtol0 (s : bytes) : option Z :=
  match strto 0 s with
  | Some (neg, m) =>
      let v := if neg : bool then - m else m in
      if (v <? - 2^63) || (2^63 - 1 <? v) then None else Some v
  | None => None
  end.
(* strtoul(s, &endptr, 16) with 64-bit long; None: endptr == s or ERANGE *)
Definition strtoul_hex (s : bytes) : option Z :=
  match strto 16 s with
  | Some (neg, m) => if 2^64 - 1 <? m then None else Some (u64 (if neg : bool then - m else m))
  | None => None
  end.

(* ---- src/main.c:27-41 ---- *)
Definition id_arg (arg : bytes) : Z :=
  if bytes_eqb (ztake 2 arg) (bytes_of "0x") then
    match strtoul_hex arg with Some v => u32 v | None => bpak_id arg end
  else bpak_id arg.

(* ---- src/create.c:70-153 ---- *)
(* :70-114; None: unknown name *)
Definition hash_arg (s : option bytes) : option Z :=
  match s with
  | None => Some HASH_SHA256
  | Some n => if bytes_eqb n (bytes_of "sha256") then Some HASH_SHA256
              else if bytes_eqb n (bytes_of "sha384") then Some HASH_SHA384
              else if bytes_eqb n (bytes_of "sha512") then Some HASH_SHA512 else None
  end.
Definition sign_arg (s : option bytes) : option Z :=
  match s with
  | None => Some SIGN_PRIME256v1
  | Some n => if bytes_eqb n (bytes_of "prime256v1") then Some SIGN_PRIME256v1
              else if bytes_eqb n (bytes_of "secp384r1") then Some SIGN_SECP384r1
              else if bytes_eqb n (bytes_of "secp521r1") then Some SIGN_SECP521r1
              else if bytes_eqb n (bytes_of "rsa4096") then Some SIGN_RSA4096 else None
  end.
Definition with_signature_kind (h : header) (k : Z) : header :=
  mkHeader (h_magic h) (h_pad0 h) (h_meta h) (h_parts h) (h_metadata h) (h_hash_kind h)
    k (h_alignment h) (h_payload_hash h) (h_key_id h) (h_keystore_id h) (h_pad1 h) (h_signature h) (h_signature_sz h).
(* :116-153, the file does not exist or overwriting was confirmed: "wb"
   truncates it *)
Definition cli_create (sha : hashfn) (hash sign : option bytes) (f : bytes) : bytes * option bytes * res unit :=
  match hash_arg hash with
  | None => (f, None, Err E_UNSUPPORTED_HASH_ALG)
  | Some hk =>
      match sign_arg sign with
      | None => (f, None, Err E_UNSUPPORTED_KEY)
      | Some sk =>
          match pkg_open sha true [] with
          | (f1, Ok _) =>
              let '(p, r) := hash_and_write sha (mkPkg (with_signature_kind (with_hash_kind init_header hk) sk) f1) in
              (pk_file p, None, r)
          | (f1, Err e) => (f1, None, Err e)
          | (f1, UB) => (f1, None, UB)
          | (f1, Stuck) => (f1, None, Stuck)
          end
      end
  end.

(* a command that opens the package ("r+"), works on it and closes it *)
Definition with_package (sha : hashfn) (f : bytes) (k : pkg -> bytes * option bytes * res unit)
    : bytes * option bytes * res unit :=
  match pkg_open sha true f with
  | (_, Ok p) => k p
  | (f1, Err e) => (f1, None, Err e)
  | (f1, UB) => (f1, None, UB)
  | (f1, Stuck) => (f1, None, Stuck)
  end.

(* ---- src/add.c --------------------------------------------------------- *)
(* the part of a zero-terminated buffer before the terminator; None: there is
   none (the C code reads on behind the buffer) *)
Fixpoint cstr (b : bytes) : option bytes :=
  match b with
  | [] => None
  | c :: r => if c =? 0 then Some [] else match cstr r with Some s => Some (c :: s) | None => None end
  end.
Inductive source :=
| FromString (s : bytes)            (* --from-string, without its terminator *)
| FromFile (content : option bytes). (* --from-file *)
(* :144-174: metadata_input[1920] and metadata_input_length *)
Definition read_source (src : source) : res (bytes * Z) :=
  match src with
  | FromString s =>
      if zlen s + 1 >? METADATA_BYTES then Err E_NO_SPACE_LEFT
      else Ok (splice 0 (s ++ [0]) (zeros METADATA_BYTES), zlen s + 1)
  | FromFile None => Err E_FAILED
  | FromFile (Some c) =>
      let b := ztake METADATA_BYTES c in
      if zlen b =? 0 then Err E_FAILED
      else Ok (splice 0 b (zeros METADATA_BYTES), zlen b)
  end.
(* :176-266: the bytes to store *)
Definition encode_input (enc : option bytes) (buf : bytes) (len : Z) : res bytes :=
  match enc with
  | None => Ok (ztake len buf)
  | Some e =>
      if bytes_eqb e (bytes_of "uuid") then
        match cstr buf with
        | None => UB
        | Some s => match uuid_parse s with Ok u => Ok u | Err _ => Err E_FAILED | UB => UB | Stuck => Stuck end
        end
      else if bytes_eqb e (bytes_of "integer") then
        match cstr buf with
        | None => UB
        | Some s => match strtol0 s with Some v => Ok (le 8 (u64 v)) | None => Err E_FAILED end
        end
      else if bytes_eqb e (bytes_of "id") then
        match cstr buf with None => UB | Some s => Ok (le 4 (bpak_id s)) end
      else Err E_NOT_SUPPORTED
  end.
(* :137-281.  The order of add_meta and the error returns of the encoders does
   not matter: nothing is written on errors *)
Definition cli_add_meta (sha : hashfn) (name : bytes) (ref : option bytes) (src : source) (enc : option bytes) (f : bytes)
    : bytes * option bytes * res unit :=
  with_package sha f (fun p =>
    let rid := match ref with Some r => bpak_id r | None => 0 end in
    match (do (buf, len) <- read_source src; encode_input enc buf len) with
    | Ok v =>
        match add_meta_bytes (pk_header p) (bpak_id name) rid v with
        | (h1, Ok _) => (pk_file (pkg_write_header (mkPkg h1 (pk_file p))), None, Ok tt)
        | (_, Err e) => (pk_file p, None, Err e)
        | (_, UB) => (pk_file p, None, UB)
        | (_, Stuck) => (pk_file p, None, Stuck)
        end
    | Err e => (pk_file p, None, Err e)
    | UB => (pk_file p, None, UB)
    | Stuck => (pk_file p, None, Stuck)
    end).
(* :282-300, input file present.  [salt]: what random() returned *)
Definition part_flags (dont_hash : bool) : Z := if dont_hash then FLAG_EXCLUDE_FROM_HASH else 0.
Definition cli_add_part (sha : hashfn) (name data : bytes) (dont_hash : bool) (f : bytes) : bytes * option bytes * res unit :=
  with_package sha f (fun p => let '(p', r) := pkg_add_file sha p data name (part_flags dont_hash) in (pk_file p', None, r)).
Definition cli_add_merkle (sha : hashfn) (name data salt : bytes) (dont_hash : bool) (f : bytes) : bytes * option bytes * res unit :=
  with_package sha f (fun p =>
    let '(p', r) := pkg_add_file_with_merkle_tree sha p data name salt (part_flags dont_hash) in (pk_file p', None, r)).
Definition cli_add_key (sha : hashfn) (name key : bytes) (dont_hash : bool) (f : bytes) : bytes * option bytes * res unit :=
  with_package sha f (fun p => let '(p', r) := pkg_add_key sha p key name (part_flags dont_hash) in (pk_file p', None, r)).

(* ---- src/set.c:109-268 -------------------------------------------------- *)
(* :113-139: set reads and checks the header itself, :250-259: and writes it *)
Definition with_header (f : bytes) (k : header -> header * res unit) : bytes * option bytes * res unit :=
  let b := fread_at f 0 HDR_SIZE in
  if negb (zlen b =? HDR_SIZE) then (f, None, Err E_READ_ERROR)
  else
    match valid_header (dec_header b) with
    | Ok _ =>
        match k (dec_header b) with
        | (h, Ok _) => (fwrite_at f 0 (enc_header h), None, Ok tt)
        | (h, Err e) => (f, None, Err e)
        | (_, UB) => (f, None, UB)
        | (_, Stuck) => (f, None, Stuck)
        end
    | Err e => (f, None, Err e)
    | UB => (f, None, UB)
    | Stuck => (f, None, Stuck)
    end.
(* :190-193: memcpy of the string and memset of the rest; meta->size - len - 1
   is not negative unless the size was cut to 16 bits, then the memcpy has
   already left the metadata block *)
Definition store_string (h : header) (i : nat) (s : bytes) : header * res unit :=
  match nth_error (h_meta h) i with
  | None => (h, UB)
  | Some m =>
      match meta_write h i 0 (s ++ [0]) with
      | Ok h1 =>
          if m_size m - zlen s - 1 <? 0 then (h1, UB)
          else match meta_write h1 i (zlen s + 1) (zeros (m_size m - zlen s - 1)) with
               | Ok h2 => (h2, Ok tt)
               | Err e => (h1, Err e) | UB => (h1, UB) | Stuck => (h1, Stuck)
               end
      | Err e => (h, Err e) | UB => (h, UB) | Stuck => (h, Stuck)
      end
  end.
(* :149-194 *)
Definition set_string (h : header) (i : nat) (s : bytes) : header * res unit :=
  match nth_error (h_meta h) i with
  | None => (h, UB)
  | Some m =>
      if zlen s + 1 >? m_size m then
        match get_meta h (m_id m) (m_ref m) with
        | Ok j =>
            match del_meta h j with
            | Ok t1 =>
                match add_meta t1 (m_id m) (m_ref m) (u16 (zlen s + 1)) with
                | (t2, Ok k) => store_string t2 k s
                | (_, Err e) => (h, Err e)
                | (_, UB) => (h, UB)
                | (_, Stuck) => (h, Stuck)
                end
            | Err e => (h, Err e) | UB => (h, UB) | Stuck => (h, Stuck)
            end
        | Err e => (h, Err e) | UB => (h, UB) | Stuck => (h, Stuck)
        end
      else store_string h i s
  end.
(* a value of fixed size, :196-226 *)
Definition set_fixed (h : header) (i : nat) (n : Z) (v : option bytes) : header * res unit :=
  match nth_error (h_meta h) i with
  | None => (h, UB)
  | Some m =>
      if negb (m_size m =? n) then (h, Err E_SIZE_ERROR)
      else match v with
           | None => (h, Err E_FAILED)
           | Some b => match meta_write h i 0 b with
                       | Ok h1 => (h1, Ok tt)
                       | Err e => (h, Err e) | UB => (h, UB) | Stuck => (h, Stuck)
                       end
           end
  end.
(* :141-230; an unknown encoder returns an error after writing the unchanged
   header back, which leaves the file as it is *)
Definition cli_set_meta (name s : bytes) (enc : option bytes) (f : bytes) : bytes * option bytes * res unit :=
  with_header f (fun h =>
    match get_meta h (bpak_id name) 0 with
    | Ok i =>
        match enc with
        | None => set_string h i s
        | Some e =>
            if bytes_eqb e (bytes_of "integer") then
              set_fixed h i 8 (match strtol0 s with Some v => Some (le 8 (u64 v)) | None => None end)
            else if bytes_eqb e (bytes_of "id") then set_fixed h i 4 (Some (le 4 (bpak_id s)))
            else (h, Err E_FAILED)
        end
    | Err e => (h, Err e) | UB => (h, UB) | Stuck => (h, Stuck)
    end).
(* :231-247 *)
Definition cli_set_ids (key keystore : option bytes) (f : bytes) : bytes * option bytes * res unit :=
  with_header f (fun h =>
    match key, keystore with
    | None, None => (h, Err (-1))
    | _, _ =>
        let h1 := match key with Some k => with_key_id h (id_arg k) | None => h end in
        let h2 := match keystore with Some k => with_keystore_id h1 (id_arg k) | None => h1 end in
        (h2, Ok tt)
    end).

(* ---- src/delete.c:81-105 ---- *)
Definition cli_delete (sha : hashfn) (part : bytes) (keep_meta : bool) (f : bytes) : bytes * option bytes * res unit :=
  if id_arg part =? 0 then (f, None, Err E_FAILED)
  else with_package sha f (fun p => let '(p', r) := pkg_delete_part sha p (id_arg part) (negb keep_meta) in (pk_file p', None, r)).
Definition cli_delete_all (sha : hashfn) (keep_meta : bool) (f : bytes) : bytes * option bytes * res unit :=
  with_package sha f (fun p => let '(p', r) := pkg_delete_all_parts sha p (negb keep_meta) in (pk_file p', None, r)).

(* ---- src/extract.c:88-157 ---- *)
Definition cli_extract_part (sha : hashfn) (part : bytes) (f : bytes) : bytes * option bytes * res unit :=
  if id_arg part =? 0 then (f, None, Err E_FAILED)
  else with_package sha f (fun p => let '(out, r) := pkg_extract_file p (id_arg part) in (pk_file p, out, r)).
Definition cli_extract_meta (sha : hashfn) (meta : bytes) (ref : option bytes) (f : bytes) : bytes * option bytes * res unit :=
  if id_arg meta =? 0 then (f, None, Err E_FAILED)
  else with_package sha f (fun p =>
    let rid := match ref with Some r => id_arg r | None => 0 end in
    match get_meta (pk_header p) (id_arg meta) rid with
    | Ok i =>
        match nth_error (h_meta (pk_header p)) i with
        | None => (pk_file p, None, UB)
        | Some m => match meta_read (pk_header p) i 0 (m_size m) with
                    | Ok b => (pk_file p, Some b, Ok tt)
                    | _ => (pk_file p, None, UB)
                    end
        end
    | Err e => (pk_file p, None, Err e)
    | UB => (pk_file p, None, UB)
    | Stuck => (pk_file p, None, Stuck)
    end).

(* ---- src/transport.c:104-116, 157-170: transport --add ---- *)
Definition cli_transport_add (sha : hashfn) (part enc dec : bytes) (f : bytes) : bytes * option bytes * res unit :=
  with_package sha f (fun p =>
    match add_transport_meta (pk_header p) (id_arg part) (bpak_id enc) (bpak_id dec) with
    | (h1, Ok _) => (pk_file (pkg_write_header (mkPkg h1 (pk_file p))), None, Ok tt)
    | (_, Err e) => (pk_file p, None, Err e)
    | (_, UB) => (pk_file p, None, UB)
    | (_, Stuck) => (pk_file p, None, Stuck)
    end).

(* ---- src/sign.c -------------------------------------------------------- *)
(* :80-110 with the signature file's content, or with a loaded key *)
Definition cli_sign_raw (sha : hashfn) (sig : option bytes) (f : bytes) : bytes * option bytes * res unit :=
  with_package sha f (fun p =>
    match sig with
    | None => (pk_file p, None, Err E_FILE_NOT_FOUND)
    | Some s => match pkg_write_raw_signature p (ztake 1024 s) with
                | Ok p' => (pk_file p', None, Ok tt)
                | Err e => (pk_file p, None, Err e)
                | UB => (pk_file p, None, UB)
                | Stuck => (pk_file p, None, Stuck)
                end
    end).
Definition cli_sign {K} (sha : hashfn) (sg : sigscheme K) (junk : bytes) (key : res K) (f : bytes) : bytes * option bytes * res unit :=
  with_package sha f (fun p =>
    match key with
    | Ok k => let '(p', r) := pkg_sign sha sg junk p k in (pk_file p', None, r)
    | Err e => (pk_file p, None, Err e)
    | UB => (pk_file p, None, UB)
    | Stuck => (pk_file p, None, Stuck)
    end).
(* :165-218; [find_key]: the key loaded from --key, or from --keystore given
   the package's keystore and key id *)
Definition cli_verify {K} (sha : hashfn) (sg : sigscheme K) (junk : bytes) (find_key : Z -> Z -> res K) (f : bytes)
    : bytes * option bytes * res unit :=
  with_package sha f (fun p =>
    match find_key (h_keystore_id (pk_header p)) (h_key_id (pk_header p)) with
    | Ok k => (pk_file p, None, pkg_verify sha sg junk p k)
    | Err e => (pk_file p, None, Err e)
    | UB => (pk_file p, None, UB)
    | Stuck => (pk_file p, None, Stuck)
    end).
