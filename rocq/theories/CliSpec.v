(* CliSpec.v -- what the bpak commands do, as a user sees it: a package is a
   list of files, a list of metadata entries and a few settings *)
From Coq Require Import String.
From Verif Require Import Base HeaderModel HeaderSpec CrcModel HashModel MerkleSpec VerifyModel VerifySpec PkgSpec PkgHistory UtilModel CliModel.
Local Open Scope Z_scope.

Record world := mkWorld {
  w_hash : Z; w_sign : Z;              (* algorithms chosen by create *)
  w_key : Z; w_keystore : Z;           (* set --key-id, --keystore-id *)
  w_sig : bytes;                       (* stored signature *)
  w_files : list fentry; w_metas : list mentry }.
Definition set_files (w : world) fs := mkWorld (w_hash w) (w_sign w) (w_key w) (w_keystore w) (w_sig w) fs (w_metas w).
Definition set_metas (w : world) ms := mkWorld (w_hash w) (w_sign w) (w_key w) (w_keystore w) (w_sig w) (w_files w) ms.

Inductive cmd :=
| CCreate (hash sign : option bytes)
| CAddPart (name data : bytes) (dont_hash : bool)
| CAddMerkle (name data salt : bytes) (dont_hash : bool)     (* salt: the random bytes *)
| CAddMeta (name : bytes) (ref : option bytes) (src : source) (enc : option bytes)
| CTransportAdd (part enc dec : bytes)
| CSetMeta (name s : bytes) (enc : option bytes)
| CSetIds (key keystore : option bytes)
| CDelete (part : bytes) (keep_meta : bool)
| CDeleteAll (keep_meta : bool)
| CExtractPart (part : bytes)
| CExtractMeta (meta : bytes) (ref : option bytes)
| CSignRaw (sig : option bytes).
(* the tool *)
Definition run_cmd (sha : hashfn) (c : cmd) (f : bytes) : bytes * option bytes * res unit :=
  match c with
  | CCreate a b => cli_create sha a b f
  | CAddPart n d x => cli_add_part sha n d x f
  | CAddMerkle n d s x => cli_add_merkle sha n d s x f
  | CAddMeta n r s e => cli_add_meta sha n r s e f
  | CTransportAdd p e d => cli_transport_add sha p e d f
  | CSetMeta n s e => cli_set_meta n s e f
  | CSetIds a b => cli_set_ids a b f
  | CDelete p k => cli_delete sha p k f
  | CDeleteAll k => cli_delete_all sha k f
  | CExtractPart p => cli_extract_part sha p f
  | CExtractMeta m r => cli_extract_meta sha m r f
  | CSignRaw s => cli_sign_raw sha s f
  end.
Fixpoint run_cmds (sha : hashfn) (cs : list cmd) (f : bytes) : bytes * list (option bytes * res unit) :=
  match cs with
  | [] => (f, [])
  | c :: r => let '(f1, out, x) := run_cmd sha c f in
              let '(f2, xs) := run_cmds sha r f1 in (f2, (out, x) :: xs)
  end.

(* ---- names and numbers ------------------------------------------------- *)
Definition is (s : option bytes) (n : string) : bool :=
  match s with Some b => bytes_eqb b (bytes_of n) | None => false end.
(* the digits at the start of a text *)
Fixpoint leading_hex (s : bytes) : bytes :=
  match s with c :: r => if isxdigit c then c :: leading_hex r else [] | [] => [] end.
Definition hex_number (ds : bytes) : Z := fold_left (fun a c => 16 * a + xvalue c) ds 0.
(* what a --part, --meta, --part-ref, --key-id or --keystore-id argument
   denotes: an argument starting with "0x" is a hexadecimal id (its last 32
   bits; the text itself when it exceeds 64 bits), anything else is a name *)
Definition arg_id (arg : bytes) : Z :=
  match arg with
  | zero :: x :: r =>
      let v := hex_number (leading_hex r) in
      if (zero =? 48) && (x =? 120) && (v <? 2^64) then v mod 2^32 else bpak_id arg
  | _ => bpak_id arg
  end.
Definition hash_named (s : option bytes) : option Z :=
  match s with None => Some 1 | Some _ =>
    if is s "sha256" then Some 1 else if is s "sha384" then Some 2 else if is s "sha512" then Some 3 else None end.
Definition sign_named (s : option bytes) : option Z :=
  match s with None => Some 2 | Some _ =>
    if is s "rsa4096" then Some 1 else if is s "prime256v1" then Some 2 else if is s "secp384r1" then Some 3
    else if is s "secp521r1" then Some 4 else None end.

(* ---- metadata values --------------------------------------------------- *)
Fixpoint before_nul (b : bytes) : bytes :=
  match b with c :: r => if c =? 0 then [] else c :: before_nul r | [] => [] end.
(* the value [add --meta] stores; strtol and uuid_parse are library functions *)
Definition meta_value (src : source) (enc : option bytes) : res bytes :=
  match src with
  | FromFile None => Err E_FAILED
  | FromFile (Some []) => Err E_FAILED
  | _ =>
      let raw := match src with FromString s => s ++ [0] | FromFile (Some c) => c | FromFile None => [] end in
      let text := before_nul raw in
      if 1920 <? zlen raw then Err E_NO_SPACE_LEFT
      else if is enc "uuid" then match uuid_parse text with Ok u => Ok u | _ => Err E_FAILED end
      else if is enc "integer" then match strtol0 text with Some v => Ok (le 8 (v mod 2^64)) | None => Err E_FAILED end
      else if is enc "id" then Ok (le 4 (bpak_id text))
      else match enc with None => Ok raw | Some _ => Err E_NOT_SUPPORTED end
  end.
Definition has_key (id ref : Z) (e : mentry) : bool := (e_id e =? id) && (e_ref e =? ref).
Definition with_value (id ref : Z) (v : bytes) (ms : list mentry) : list mentry :=
  map (fun e => if has_key id ref e then mkEntry id ref v else e) ms.
Definition spec_add_meta (w : world) (id ref : Z) (v : bytes) : world * res unit :=
  if existsb (has_key id ref) (w_metas w) then (w, Err E_EXISTS)
  else if 1920 <? meta_end (w_metas w) + zlen v then (w, Err E_NO_SPACE_LEFT)
  else (set_metas w (w_metas w ++ [mkEntry id ref v]), Ok tt).
(* [set --meta]: a text that fits is padded with zeros to the old length; a
   longer one is moved to the end (for what happens to the entries in between
   see [purge] and C06) *)
Definition spec_set_meta (w : world) (id : Z) (s : bytes) (enc : option bytes) : world * res unit :=
  match find (has_key id 0) (w_metas w) with
  | None => (w, Err E_NOT_FOUND)
  | Some e =>
      let len := zlen (e_val e) in
      if is enc "integer" then
        if negb (len =? 8) then (w, Err E_SIZE_ERROR)
        else match strtol0 s with
             | Some v => (set_metas w (with_value id 0 (le 8 (v mod 2^64)) (w_metas w)), Ok tt)
             | None => (w, Err E_FAILED)
             end
      else if is enc "id" then
        if negb (len =? 4) then (w, Err E_SIZE_ERROR)
        else (set_metas w (with_value id 0 (le 4 (bpak_id s)) (w_metas w)), Ok tt)
      else match enc with
      | Some _ => (w, Err E_FAILED)
      | None =>
          let t := s ++ [0] in
          if zlen t <=? len then (set_metas w (with_value id 0 (t ++ zeros (len - zlen t)) (w_metas w)), Ok tt)
          else
            let ms := purge (has_key id 0) 1920 (w_metas w) in
            if 1920 <? meta_end ms + zlen t then (w, Err E_NO_SPACE_LEFT)
            else (set_metas w (ms ++ [mkEntry id 0 t]), Ok tt)
      end
  end.
Definition ref_id (f : bytes -> Z) (r : option bytes) : Z := match r with Some n => f n | None => 0 end.
Definition flags_of (dont_hash : bool) : Z := if dont_hash then 1 else 0.

(* ---- the commands ------------------------------------------------------ *)
Definition spec_cmd (sha : hashfn) (w : world) (c : cmd) (w' : world) (out : option bytes) (r : res unit) : Prop :=
  match c with
  | CCreate h s =>
      out = None /\
      match hash_named h, sign_named s with
      | Some hk, Some sk => w' = mkWorld hk sk 0 0 [] [] [] /\ r = Ok tt
      | None, _ => w' = w /\ r = Err E_UNSUPPORTED_HASH_ALG
      | Some _, None => w' = w /\ r = Err E_UNSUPPORTED_KEY
      end
  | CAddPart name data dh =>
      let '(fs, x, y) := spec_pkg_op bpak_id (w_files w) (OAdd name data (flags_of dh)) in
      w' = set_files w fs /\ out = x /\ r = y
  | CAddMerkle name data salt dh =>
      exists ls, hash_levels sha salt data ls /\ out = None /\ r = Ok tt /\
        w' = set_metas (set_files w (w_files w ++ [mkFile (bpak_id name) (flags_of dh) data;
                                                    mkFile (bpak_id (name ++ bytes_of "-hash-tree")) (flags_of dh) (hash_tree ls)]))
               (w_metas w ++ [mkEntry ID_MERKLE_SALT (bpak_id name) salt;
                              mkEntry ID_MERKLE_ROOT_HASH (bpak_id name) (root_hash sha salt data ls)])
  | CAddMeta name ref src enc =>
      out = None /\
      match meta_value src enc with
      | Ok v => (w', r) = spec_add_meta w (bpak_id name) (ref_id bpak_id ref) v
      | Err e => w' = w /\ r = Err e
      | _ => False
      end
  | CTransportAdd part enc dec =>
      (* only 8 of the 32 bytes are written *)
      out = None /\ exists stale, zlen stale = 24 /\
        (w', r) = spec_add_meta w ID_BPAK_TRANSPORT (arg_id part) (le 4 (bpak_id enc) ++ le 4 (bpak_id dec) ++ stale)
  | CSetMeta name s enc => out = None /\ (w', r) = spec_set_meta w (bpak_id name) s enc
  | CSetIds key ks =>
      out = None /\
      match key, ks with
      | None, None => w' = w /\ r = Err (-1)
      | _, _ => r = Ok tt /\
          w' = mkWorld (w_hash w) (w_sign w) (match key with Some k => arg_id k | None => w_key w end)
                 (match ks with Some k => arg_id k | None => w_keystore w end) (w_sig w) (w_files w) (w_metas w)
      end
  | CDelete part keep =>
      out = None /\
      if arg_id part =? 0 then w' = w /\ r = Err E_FAILED
      else if existsb (fun f => f_id f =? arg_id part) (w_files w) then
        r = Ok tt /\
        w' = set_metas (set_files w (filter (fun f => negb (f_id f =? arg_id part)) (w_files w)))
               (if keep then w_metas w else purge (fun e => e_ref e =? arg_id part) 1920 (w_metas w))
      else w' = w /\ r = Err E_NOT_FOUND
  | CDeleteAll keep =>
      out = None /\ r = Ok tt /\
      w' = set_metas (set_files w []) (if keep then w_metas w else purge (fun e => negb (e_ref e =? 0)) 1920 (w_metas w))
  | CExtractPart part =>
      w' = w /\
      if arg_id part =? 0 then out = None /\ r = Err E_FAILED
      else match find (fun f => f_id f =? arg_id part) (w_files w) with
           | Some f => out = Some (f_data f) /\ r = Ok tt
           | None => out = None /\ r = Err E_NOT_FOUND
           end
  | CExtractMeta meta ref =>
      w' = w /\
      if arg_id meta =? 0 then out = None /\ r = Err E_FAILED
      else match find (has_key (arg_id meta) (ref_id arg_id ref)) (w_metas w) with
           | Some e => out = Some (e_val e) /\ r = Ok tt
           | None => out = None /\ r = Err E_NOT_FOUND
           end
  | CSignRaw sig =>
      out = None /\
      match sig with
      | None => w' = w /\ r = Err E_FILE_NOT_FOUND
      | Some s => r = Ok tt /\ w' = mkWorld (w_hash w) (w_sign w) (w_key w) (w_keystore w) s (w_files w) (w_metas w)
      end
  end.

(* ---- the limits -------------------------------------------------------- *)
Definition text (s : bytes) : bool := forallb (fun b => (0 <? b) && (b <? 256)) s.
Definition all_bytes (s : bytes) : bool := forallb (fun b => (0 <=? b) && (b <? 256)) s.
Definition is_name (s : bytes) : bool := text s && negb (bpak_id s =? 0).
Definition opt_text (s : option bytes) : bool := match s with Some b => text b | None => true end.
Definition world_size (w : world) : Z := 4096 + zlen (concat (map file_stored (w_files w))).
(* commands within the tool's limits: arguments are C strings whose id is not
   0, files hold bytes and the package stays below 2^63 bytes, at most 31
   metadata entries are used (one slot stays free), a metadata file has at
   most 1920 bytes (and a terminator when it is to be decoded), a text given
   to set is shorter than 65535 bytes, files with a hash tree are whole blocks
   of at most 8 GiB, signatures have at most 512 bytes *)
Definition fits (w : world) (c : cmd) : bool :=
  match c with
  | CCreate h s => true
  | CAddPart name data _ => is_name name && all_bytes data && (world_size w + zlen data + 512 <=? 2^63)
  | CAddMerkle name data salt _ =>
      is_name name && all_bytes data && (world_size w + zlen data + 2^40 <=? 2^63) &&
      (0 <? zlen data) && (zlen data <=? 2^33) && (zlen data mod 4096 =? 0) &&
      (zlen salt =? 32) && all_bytes salt &&
      negb (bpak_id (name ++ bytes_of "-hash-tree") =? 0) &&
      negb (bpak_id (name ++ bytes_of "-hash-tree") =? bpak_id name) &&
      negb (existsb (fun f => (f_id f =? bpak_id name) || (f_id f =? bpak_id (name ++ bytes_of "-hash-tree"))) (w_files w)) &&
      negb (existsb (fun e => has_key ID_MERKLE_SALT (bpak_id name) e || has_key ID_MERKLE_ROOT_HASH (bpak_id name) e) (w_metas w)) &&
      (length (w_files w) <=? 30)%nat && (length (w_metas w) <=? 29)%nat && (meta_end (w_metas w) + 64 <=? 1920)
  | CAddMeta name ref src enc =>
      is_name name && opt_text ref && (length (w_metas w) <=? 30)%nat &&
      match src with
      | FromString s => text s
      | FromFile None => true
      | FromFile (Some c) => all_bytes c && (zlen c <=? 1920) &&
          match enc with None => true | Some _ => existsb (fun b => b =? 0) c || (zlen c <? 1920) end
      end
  | CTransportAdd part enc dec => text part && text enc && text dec && (length (w_metas w) <=? 30)%nat
  | CSetMeta name s _ => is_name name && text s && (zlen s <? 65535)
  | CSetIds key ks => opt_text key && opt_text ks
  | CDelete part _ => text part
  | CDeleteAll _ => true
  | CExtractPart part => text part
  | CExtractMeta meta ref => text meta && opt_text ref
  | CSignRaw (Some s) => all_bytes s && (zlen s <=? 512)
  | CSignRaw None => true
  end.
(* a sequence of commands within the limits, what it prints and leaves *)
Inductive spec_cmds (sha : hashfn) : world -> list cmd -> list (option bytes * res unit) -> world -> Prop :=
| SC_nil w : spec_cmds sha w [] [] w
| SC_cons w c w1 out r cs xs w2 :
    fits w c = true -> spec_cmd sha w c w1 out r -> spec_cmds sha w1 cs xs w2 ->
    spec_cmds sha w (c :: cs) ((out, r) :: xs) w2.

(* the file [f] is a package with the contents [w] *)
Definition stored (sha : hashfn) (f : bytes) (w : world) : Prop := exists p,
  pk_file p = f /\ pkg_inv sha p (w_files w) /\
  (let h := pk_header p in
   metas_are (h_meta h) (h_metadata h) (w_metas w) /\ (length (w_metas w) < 32)%nat /\ no_ghost_refs (h_meta h) /\
   h_hash_kind h = w_hash w /\ h_signature_kind h = w_sign w /\ h_key_id h = w_key w /\ h_keystore_id h = w_keystore w /\
   h_signature_sz h = zlen (w_sig w) /\ slice 0 (h_signature_sz h) (h_signature h) = w_sig w).
