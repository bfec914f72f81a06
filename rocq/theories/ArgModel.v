(* ArgModel.v -- the command line of bpak: getopt_long, src/main.c and the
   option handling of src/*.c, on a file system of named files.
   Definitions only.
   getopt_long as the GNU manual describes it (POSIXLY_CORRECT not set): options
   and operands in any order, long options can be abbreviated.  A file can be
   opened when it exists, and made under every name; two names are two files.
   Not modelled: messages, and the verbosity. *)
From Coq Require Import String.
From Verif Require Import Base HeaderModel CrcModel HashModel MerkleModel VerifyModel PkgModel UtilModel KeystoreModel MbedModel CliModel
  BspatchModel LzModel TransportModel TransportCliModel ViewModel.
Local Open Scope Z_scope.

(* ---- getopt_long ---- *)
Inductive oev := EOpt (c : Z) (arg : option bytes) | EBad.
(* a struct option: name, required_argument?, val *)
Definition longs := list (bytes * bool * Z).
Definition ch (s : string) : Z := hd 0 (bytes_of s).
Definition DASH : Z := 45.
Definition COLON : Z := 58.
Definition EQUALS : Z := 61.
(* looking [c] up in the option string: does it take an argument? *)
Fixpoint short_lookup (os : bytes) (c : Z) : option bool :=
  match os with
  | [] => None
  | a :: r => if a =? c then Some (match r with x :: _ => x =? COLON | [] => false end) else short_lookup r c
  end.
Definition short_kind (os : bytes) (c : Z) : option bool := if c =? COLON then None else short_lookup os c.
(* the characters of a word after "-"; second component: an option that needs
   the next word *)
Fixpoint cluster (os w : bytes) : list oev * option Z :=
  match w with
  | [] => ([], None)
  | c :: r =>
      match short_kind os c with
      | None => ([EBad], None)
      | Some false => let (e, p) := cluster os r in (EOpt c None :: e, p)
      | Some true => match r with [] => ([], Some c) | _ => ([EOpt c (Some r)], None) end
      end
  end.
Fixpoint prefix (a b : bytes) : bool :=
  match a, b with
  | [], _ => true
  | x :: r, y :: s => (x =? y) && prefix r s
  | _, [] => false
  end.
(* exact match, or the only option the name is a prefix of *)
Definition long_lookup (ls : longs) (name : bytes) : option (bool * Z) :=
  match find (fun o => bytes_eqb (fst (fst o)) name) ls with
  | Some (_, a, c) => Some (a, c)
  | None => match filter (fun o => prefix name (fst (fst o))) ls with
            | [(_, a, c)] => Some (a, c)
            | _ => None
            end
  end.
(* "name=value" *)
Fixpoint split_eq (w : bytes) : bytes * option bytes :=
  match w with
  | [] => ([], None)
  | c :: r => if c =? EQUALS then ([], Some r) else let (n, v) := split_eq r in (c :: n, v)
  end.
Definition first {A B} (l : list A) (x : list A * B) : list A * B := (l ++ fst x, snd x).
(* all words: what getopt_long returns, one after the other, and argv from the
   last optind on.  After a '?' every caller gives up *)
Fixpoint scan (os : bytes) (ls : longs) (ws : list bytes) : list oev * list bytes :=
  let operand w r := let (e, o) := scan os ls r in (e, w :: o) in
  match ws with
  | [] => ([], [])
  | w :: r =>
      match w with
      | c1 :: c2 :: body =>
          if negb (c1 =? DASH) then operand w r
          else if c2 =? DASH then
            match body with
            | [] => ([], r)
            | _ =>
                let (name, val) := split_eq body in
                match long_lookup ls name, val with
                | None, _ => ([EBad], [])
                | Some (true, c), Some v => first [EOpt c (Some v)] (scan os ls r)
                | Some (true, c), None =>
                    match r with
                    | [] => ([EBad], [])
                    | v :: r' => first [EOpt c (Some v)] (scan os ls r')
                    end
                | Some (false, c), Some _ => ([EBad], [])
                | Some (false, c), None => first [EOpt c None] (scan os ls r)
                end
            end
          else
            match cluster os (c2 :: body) with
            | (e, None) => first e (scan os ls r)
            | (e, Some c) =>
                match r with
                | [] => (e ++ [EBad], [])
                | v :: r' => first (e ++ [EOpt c (Some v)]) (scan os ls r')
                end
            end
      | _ => operand w r
      end
  end.

(* the variables set by the switch of an action: what the last occurrence of an
   option left *)
Fixpoint given (l : list oev) (c : Z) : option (option bytes) :=
  match l with
  | [] => None
  | EOpt d v :: r => match given r c with Some x => Some x | None => if d =? c then Some v else None end
  | EBad :: r => given r c
  end.
Definition set_p (l : list oev) (c : Z) : bool := match given l c with Some _ => true | None => false end.
Definition arg (l : list oev) (c : Z) : option bytes := match given l c with Some (Some v) => Some v | _ => None end.

Inductive printed_ := PNothing | PUsage | PData (b : bytes)
| PShow (l : list sline) | PCompare (l : list cline)             (* ViewModel.v *)
| PId (name : bytes) (id : Z)                                    (* src/generate.c:83 *)
(* the name of the keystore, --decorate, the keys that were complete when the
   command stopped, the id of the keystore *)
| PKeys (name : bytes) (decorate : bool) (keys : list gkey) (id : option Z).
(* file system, output, return code (None: not followed) *)
Definition outcome := (fsys * printed_ * option (res unit))%type.
Definition fail (fs : fsys) (e : Z) : outcome := (fs, PNothing, Some (Err e)).

(* the switch: 'h' returns 0, '?' and options without a case return -1 *)
Fixpoint walk (cases : bytes) (bad : Z -> option bytes -> bool) (l : list oev) : option (printed_ * res unit) :=
  match l with
  | [] => None
  | EBad :: _ => Some (PNothing, Err (-1))
  | EOpt c v :: r =>
      if c =? ch "h" then Some (PUsage, Ok tt)
      else if existsb (Z.eqb c) cases then (if bad c v then Some (PNothing, Err (-1)) else walk cases bad r)
      else Some (PNothing, Err (-1))
  end.
Definition no_bad (c : Z) (v : option bytes) : bool := false.

Definition flag_opt (n c : string) : bytes * bool * Z := (bytes_of n, false, ch c).
Definition arg_opt (n c : string) : bytes * bool * Z := (bytes_of n, true, ch c).

Record env := mkEnv {
  en_sha : hashfn; en_sg : sigscheme key; en_junk : bytes; en_salt : bytes;
  en_pub : bytes -> option pkctx; en_pri : bytes -> option pkctx; en_buf : bytes -> option pkctx;   (* mbedTLS: MbedModel.v *)
  en_bld : build; en_sais : bytes -> option (list Z); en_garbage : garbage;
  en_answer : option Z;           (* the first character on standard input *)
  (* what is in string_output[64] of compare, and in hash_output[64] and
     hash_str[128] of show *)
  en_text : bytes; en_hash : bytes; en_hex : bytes }.

Section Act.
Variable e : env.
Notation sha := (en_sha e).

(* an action after the option loop *)
Definition action_all (os : bytes) (ls : longs) (cases : bytes) (bad : Z -> option bytes -> bool) (fs : fsys) (ws : list bytes)
    (k : list oev -> list bytes -> outcome) : outcome :=
  let (l, ops) := scan os ls ws in
  match walk cases bad l with
  | Some (p, r) => (fs, p, Some r)
  | None => k l ops
  end.
(* and after the check for a filename *)
Definition action (os : bytes) (ls : longs) (cases : bytes) (bad : Z -> option bytes -> bool) (fs : fsys) (ws : list bytes)
    (k : list oev -> bytes -> outcome) : outcome :=
  action_all os ls cases bad fs ws (fun l ops => match ops with [] => fail fs (-1) | path :: _ => k l path end).
(* an action on one existing file; [missing]: the code when there is none *)
Definition on_file (fs : fsys) (path : bytes) (missing : Z) (k : bytes -> bytes * option bytes * res unit) : outcome :=
  match fs path with
  | None => fail fs missing
  | Some f => let '(f1, out, r) := k f in
              (fs_put fs path f1, match out with Some b => PData b | None => PNothing end, Some r)
  end.

(* ---- src/create.c:13-153 ---- *)
Definition os_create : bytes := bytes_of "hvYH:S:".
Definition ls_create : longs :=
  [flag_opt "help" "h"; flag_opt "verbose" "v"; flag_opt "force" "Y"; arg_opt "hash-kind" "H"; arg_opt "signature-kind" "S"].
Definition act_create (fs : fsys) (ws : list bytes) : outcome :=
  action os_create ls_create (bytes_of "vYHS") no_bad fs ws (fun l path =>
    match hash_arg (arg l (ch "H")) with
    | None => fail fs E_UNSUPPORTED_HASH_ALG
    | Some _ =>
        match sign_arg (arg l (ch "S")) with
        | None => fail fs E_UNSUPPORTED_KEY
        | Some _ =>
            let exists_ := match fs path with Some _ => true | None => false end in
            if exists_ && negb (set_p l (ch "Y")) && negb (match en_answer e with Some c => c =? ch "Y" | None => false end)
            then fail fs (-1)
            else let '(f1, _, r) := cli_create sha (arg l (ch "H")) (arg l (ch "S")) [] in (fs_put fs path f1, PNothing, Some r)
        end
    end).

(* ---- src/add.c:24-307 ---- *)
Definition os_add : bytes := bytes_of "hvp:m:f:s:e:F:r:".
Definition ls_add : longs :=
  [flag_opt "help" "h"; flag_opt "verbose" "v"; arg_opt "part" "p"; arg_opt "meta" "m"; arg_opt "from-file" "f";
   arg_opt "from-string" "s"; arg_opt "encoder" "e"; arg_opt "set-flag" "F"; arg_opt "part-ref" "r"].
(* :73-80 *)
Definition bad_flag (c : Z) (v : option bytes) : bool :=
  (c =? ch "F") && negb (match v with Some b => bytes_eqb b (bytes_of "dont-hash") | None => false end).
(* a file name that may be NULL: stat and fopen then fail *)
Definition content (fs : fsys) (path : option bytes) : option bytes := match path with Some p => fs p | None => None end.
Definition load_public (fs : fsys) (path : option bytes) : res key :=
  match content fs path with Some b => mbed_load_public_key (en_pub e) b | None => Err E_KEY_DECODE end.
(* the package is opened, nothing else happens *)
Definition open_and_fail (err : Z) (f : bytes) : bytes * option bytes * res unit :=
  with_package sha f (fun p => (pk_file p, None, Err err)).
Definition act_add (fs : fsys) (ws : list bytes) : outcome :=
  action os_add ls_add (bytes_of "vpmrfseF") bad_flag fs ws (fun l path =>
    let from := arg l (ch "f") in
    match arg l (ch "m"), arg l (ch "p") with
    | None, None => fail fs (-1)
    | m, p =>
        match arg l (ch "s"), from with
        | None, None => fail fs (-1)
        | s, _ =>
            match m, p with
            | Some name, _ =>
                let src := match s with Some x => FromString x | None => FromFile (content fs from) end in
                on_file fs path E_NOT_FOUND (cli_add_meta sha name (arg l (ch "r")) src (arg l (ch "e")))
            | None, Some name =>
                let dont := set_p l (ch "F") in
                let own := match from with Some x => bytes_eqb x path | None => false end in
                match arg l (ch "e") with
                | None =>
                    if own then (fs, PNothing, None)
                    else on_file fs path E_NOT_FOUND
                      (match content fs from with
                       | Some d => cli_add_part sha name d dont
                       | None => open_and_fail E_FILE_NOT_FOUND
                       end)
                | Some enc =>
                    if bytes_eqb enc (bytes_of "key") then
                      on_file fs path E_NOT_FOUND
                        (match load_public fs from with
                         | Ok k => cli_add_key sha name (k_data k) dont
                         | Err x => open_and_fail x
                         | _ => open_and_fail (-1)       (* not possible: MbedModel never does that *)
                         end)
                    else if bytes_eqb enc (bytes_of "merkle") then
                      if own then (fs, PNothing, None)
                      else on_file fs path E_NOT_FOUND
                        (match content fs from with
                         | Some d => cli_add_merkle sha name d (en_salt e) dont
                         | None => open_and_fail E_FILE_NOT_FOUND
                         end)
                    else on_file fs path E_NOT_FOUND (open_and_fail E_FAILED)
                end
            | None, None => fail fs (-1)
            end
        end
    end).

(* ---- src/set.c:23-268 ---- *)
Definition os_set : bytes := bytes_of "hvp:m:s:e:k:i:".
Definition ls_set : longs :=
  [flag_opt "help" "h"; flag_opt "verbose" "v"; arg_opt "meta" "m"; arg_opt "from-string" "s"; arg_opt "encoder" "e";
   arg_opt "key-id" "k"; arg_opt "keystore-id" "i"].
Definition act_set (fs : fsys) (ws : list bytes) : outcome :=
  action os_set ls_set (bytes_of "vkimse") no_bad fs ws (fun l path =>
    match arg l (ch "m") with
    | Some name =>
        match arg l (ch "s") with
        | None => fail fs (-1)
        | Some s => on_file fs path E_FILE_NOT_FOUND (cli_set_meta name s (arg l (ch "e")))
        end
    | None =>
        if set_p l (ch "k") || set_p l (ch "i")
        then on_file fs path E_FILE_NOT_FOUND (cli_set_ids (arg l (ch "k")) (arg l (ch "i")))
        else fail fs (-1)
    end).

(* ---- src/delete.c:23-106 ---- *)
Definition os_delete : bytes := bytes_of "hvp:ak".
Definition ls_delete : longs :=
  [flag_opt "help" "h"; flag_opt "verbose" "v"; arg_opt "part" "p"; flag_opt "all" "a"; flag_opt "keep-meta" "k"].
Definition id_of (a : option bytes) : Z := match a with Some s => id_arg s | None => 0 end.
Definition act_delete (fs : fsys) (ws : list bytes) : outcome :=
  action os_delete ls_delete (bytes_of "vpak") no_bad fs ws (fun l path =>
    if (id_of (arg l (ch "p")) =? 0) && negb (set_p l (ch "a")) then fail fs E_FAILED
    else if set_p l (ch "a") then on_file fs path E_NOT_FOUND (cli_delete_all sha (set_p l (ch "k")))
    else on_file fs path E_NOT_FOUND
           (cli_delete sha (match arg l (ch "p") with Some s => s | None => [] end) (set_p l (ch "k")))).

(* ---- src/extract.c:24-157 ---- *)
Definition os_extract : bytes := bytes_of "hvm:p:o:r:".
Definition ls_extract : longs :=
  [flag_opt "help" "h"; flag_opt "verbose" "v"; arg_opt "meta" "m"; arg_opt "part" "p"; arg_opt "output" "o"; arg_opt "part-ref" "r"].
(* what would go to standard output goes to a file *)
Definition to_file (x : outcome) (output : option bytes) : outcome :=
  match output, x with
  | Some out, (fs1, PData b, r) => (fs_put fs1 out b, PNothing, r)
  | _, _ => x
  end.
Definition act_extract (fs : fsys) (ws : list bytes) : outcome :=
  action os_extract ls_extract (bytes_of "vrpmo") no_bad fs ws (fun l path =>
    let m := match arg l (ch "m") with Some s => s | None => [] end in
    let p := match arg l (ch "p") with Some s => s | None => [] end in
    let mid := id_of (arg l (ch "m")) in
    let pid := id_of (arg l (ch "p")) in
    if negb (xorb (mid >? 0) (pid >? 0)) then fail fs E_FAILED
    else if mid >? 0 then
      to_file (on_file fs path E_NOT_FOUND (cli_extract_meta sha m (arg l (ch "r")))) (arg l (ch "o"))
    else if match arg l (ch "o") with Some out => bytes_eqb out path | None => false end
    then (fs, PNothing, None)     (* the package is emptied while it is read *)
    else to_file (on_file fs path E_NOT_FOUND (cli_extract_part sha p)) (arg l (ch "o"))).

(* ---- src/sign.c ---- *)
(* :20-110.  Without --signature and --key the key's file name is NULL *)
Definition os_sign : bytes := bytes_of "hvk:f:".
Definition ls_sign : longs := [flag_opt "help" "h"; flag_opt "verbose" "v"; arg_opt "key" "k"; arg_opt "signature" "f"].
Definition act_sign (fs : fsys) (ws : list bytes) : outcome :=
  action os_sign ls_sign (bytes_of "vkf") no_bad fs ws (fun l path =>
    match arg l (ch "f") with
    | Some s => on_file fs path E_NOT_FOUND (cli_sign_raw sha (fs s))
    | None => on_file fs path E_NOT_FOUND
        (cli_sign sha (en_sg e) (en_junk e)
           (match content fs (arg l (ch "k")) with Some b => mbed_load_private_key (en_pri e) b | None => Err E_KEY_DECODE end))
    end).
(* :112-218 *)
Definition os_verify : bytes := bytes_of "hvk:K:".
Definition ls_verify : longs := [flag_opt "help" "h"; flag_opt "verbose" "v"; arg_opt "key" "k"; arg_opt "keystore" "K"].
Definition act_verify (fs : fsys) (ws : list bytes) : outcome :=
  action os_verify ls_verify (bytes_of "vkK") no_bad fs ws (fun l path =>
    on_file fs path E_NOT_FOUND (cli_verify sha (en_sg e) (en_junk e) (fun ksid kid =>
      match arg l (ch "k"), arg l (ch "K") with
      | Some s, _ => load_public fs (Some s)
      | None, Some s => match fs s with
                        | Some b => keystore_load_key sha (mbed_parse_public_key (en_buf e)) b ksid kid None
                        | None => Err E_NOT_FOUND
                        end
      | None, None => Err (-1)
      end))).

(* ---- src/transport.c:23-187 ---- *)
Definition os_transport : bytes := bytes_of "hvao:s:O:e:d:EGr:".
Definition ls_transport : longs :=
  [flag_opt "help" "h"; flag_opt "verbose" "v"; flag_opt "add" "a"; arg_opt "origin" "O"; arg_opt "output" "o"; arg_opt "encoder" "e";
   arg_opt "decoder" "d"; flag_opt "encode" "E"; flag_opt "decode" "D"; arg_opt "part-ref" "r"].
Definition act_transport (fs : fsys) (ws : list bytes) : outcome :=
  action os_transport ls_transport (bytes_of "vaErOoedD") no_bad fs ws (fun l path =>
    let enc := set_p l (ch "E") in
    let dec := set_p l (ch "D") in
    let add := set_p l (ch "a") in
    if (enc && add) || (enc && dec) || (add && dec) then fail fs (-1)
    else if enc || dec then
      let (fs1, r) := cli_transport (en_bld e) sha (en_sais e) (en_garbage e) fs (if enc then TEncode else TDecode) path
                        (arg l (ch "O")) (arg l (ch "o")) in (fs1, PNothing, r)
    else
      match t_open sha fs path (arg l (ch "O")) with
      | (fs1, Ok (p, _)) =>
          match add, arg l (ch "e"), arg l (ch "d") with
          | true, Some en, Some de =>
              match add_transport_meta (pk_header p) (id_of (arg l (ch "r"))) (bpak_id en) (bpak_id de) with
              | (h1, Ok _) => (fs_put fs1 path (pk_file (pkg_write_header (mkPkg h1 (pk_file p)))), PNothing, Some (Ok tt))
              | (_, Err x) => fail fs1 x
              | (_, UB) => (fs1, PNothing, Some UB)
              | (_, Stuck) => (fs1, PNothing, Some Stuck)
              end
          | _, _, _ => fail fs1 E_FAILED
          end
      | (fs1, Err x) => fail fs1 x
      | (fs1, UB) => (fs1, PNothing, Some UB)
      | (fs1, Stuck) => (fs1, PNothing, Some Stuck)
      end).

(* ---- src/show.c:22-111 ---- *)
Definition os_show : bytes := bytes_of "hvm:p:P:HB".
Definition ls_show : longs :=
  [flag_opt "help" "h"; flag_opt "verbose" "v"; arg_opt "meta" "m"; arg_opt "part" "p"; arg_opt "part-hash" "P"; flag_opt "hash" "H";
   flag_opt "binary-hash" "B"].
(* the order of :113-192 *)
Definition show_of (m p ph : option bytes) (b h : bool) : show_what :=
  match m, p, ph with
  | Some m, _, _ => ShowMeta (id_arg m) (option_map id_arg p)
  | None, Some p, _ => ShowPart (id_arg p)
  | None, None, Some p => ShowPartHash (id_arg p)
  | None, None, None => if b then ShowBinHash else if h then ShowHash else ShowAll
  end.
Definition act_show (fs : fsys) (ws : list bytes) : outcome :=
  action os_show ls_show (bytes_of "vpPmHB") no_bad fs ws (fun l path =>
    match fs path with
    | None => fail fs E_NOT_FOUND
    | Some f =>
        let (ls, r) := cli_show sha (en_hash e) (en_hex e)
                         (show_of (arg l (ch "m")) (arg l (ch "p")) (arg l (ch "P")) (set_p l (ch "B")) (set_p l (ch "H"))) f in
        (fs, PShow ls, Some r)
    end).

(* ---- src/compare.c:22-90 ---- *)
Definition os_compare : bytes := bytes_of "hv".
Definition ls_compare : longs := [flag_opt "help" "h"; flag_opt "verbose" "v"].
Definition act_compare (fs : fsys) (ws : list bytes) : outcome :=
  action_all os_compare ls_compare (bytes_of "v") no_bad fs ws (fun l ops =>
    match ops with
    | a :: b :: _ =>
        match fs a, fs b with
        | Some f1, Some f2 => let (ls, r) := cli_compare (en_text e) f1 f2 in (fs, PCompare ls, Some r)
        | _, _ => fail fs E_FILE_NOT_FOUND
        end
    | _ => fail fs (-1)
    end).

(* ---- src/generate.c:18-117 ---- *)
Definition os_generate : bytes := bytes_of "hvdn:".
Definition ls_generate : longs :=
  [flag_opt "help" "h"; flag_opt "verbose" "v"; arg_opt "name" "n"; flag_opt "decorate" "d"].
(* :157-162 *)
Definition c_name (s : bytes) : bytes := map (fun c => if c =? 45 then 95 else c) s.
Definition act_generate (fs : fsys) (ws : list bytes) : outcome :=
  action_all os_generate ls_generate (bytes_of "vnd") no_bad fs ws (fun l ops =>
    match ops with
    | [] => fail fs (-1)
    | g :: r =>
        if bytes_eqb g (bytes_of "id") then
          match r with [] => fail fs (-1) | s :: _ => (fs, PId s (bpak_id s), Some (Ok tt)) end
        else if bytes_eqb g (bytes_of "keystore") then
          match r with
          | [] => fail fs (-1)
          | path :: _ =>
              match arg l (ch "n") with
              | None => fail fs E_FAILED
              | Some name =>
                  match fs path with
                  | None => fail fs E_NOT_FOUND
                  | Some f =>
                      let (ks, r) := cli_generate (mbed_parse_public_key (en_buf e)) f in
                      (fs, PKeys (c_name name) (set_p l (ch "d")) ks (match r with Ok id => Some id | _ => None end),
                       Some (do _ <- r; Ok tt))
                  end
              end
          end
        else (fs, PNothing, Some (Ok tt))        (* rc is still 0 *)
    end).

(* ---- src/main.c:43-132 ---- *)
(* :92-120 *)
Definition dispatch (verb : bytes) (fs : fsys) (ws : list bytes) : outcome :=
  let is n := bytes_eqb verb (bytes_of n) in
  if is "create"%string then act_create fs ws
  else if is "add"%string then act_add fs ws
  else if is "show"%string then act_show fs ws
  else if is "sign"%string then act_sign fs ws
  else if is "verify"%string then act_verify fs ws
  else if is "generate"%string then act_generate fs ws
  else if is "transport"%string then act_transport fs ws
  else if is "set"%string then act_set fs ws
  else if is "compare"%string then act_compare fs ws
  else if is "extract"%string then act_extract fs ws
  else if is "delete"%string then act_delete fs ws
  else fail fs (-1).
(* [ws]: argv[1], argv[2], ... *)
Definition bpak (fs : fsys) (ws : list bytes) : outcome :=
  match ws with
  | [] => (fs, PUsage, Some (Ok tt))
  | w :: rest =>
      match scan (bytes_of "hV") [flag_opt "help" "h"; flag_opt "version" "V"] [w] with
      | (EBad :: _, _) => fail fs (-1)
      | (EOpt _ _ :: _, _) => (fs, PUsage, Some (Ok tt))
      | ([], verb :: _) => dispatch verb fs rest
      | ([], []) =>        (* "--": the action then finds its own name as first argument *)
          match rest with [] => fail fs (-1) | verb :: _ => dispatch verb fs rest end
      end
  end.
End Act.
(* main's return value as the exit status of the process *)
Definition status (r : res unit) : option Z :=
  match r with Ok _ => Some 0 | Err x => Some (x mod 256) | _ => None end.
