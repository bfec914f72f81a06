(* ArgSpec.v -- command lines of bpak as its usage text and the GNU conventions
   describe them.  Independent of the scanner of ArgModel.v. *)
From Coq Require Import String Permutation.
From Verif Require Import Base HeaderModel CrcModel HashModel VerifyModel CliModel CliSpec TransportCliModel ArgModel.
Local Open Scope Z_scope.

(* an option as given: its character, and its argument *)
Definition opt : Type := Z * option bytes.
(* the options of a command: characters, and long names with the character
   they stand for; both say whether an argument is needed *)
Record syntax := mkSyntax { sy_short : list (Z * bool); sy_long : list (bytes * bool * Z) }.
Definition is_prefix (a b : bytes) : Prop := exists c, b = a ++ c.
(* a long name stands for an option: written in full, or cut so that only one
   option starts like that *)
Inductive stands_for (y : syntax) (n : bytes) (a : bool) (c : Z) : Prop :=
| full_name : In (n, a, c) (sy_long y) -> stands_for y n a c
| cut_name full : In (full, a, c) (sy_long y) -> is_prefix n full ->
    (forall x, In x (sy_long y) -> is_prefix n (fst (fst x)) -> x = (full, a, c)) -> stands_for y n a c.
Definition minus : Z := 45.
Definition equals : Z := 61.
Definition flags (y : syntax) (cs : list Z) : Prop := Forall (fun c => In (c, false) (sy_short y)) cs.
Definition plain (c : Z) : opt := (c, None).
(* a word that is no option: not starting with "-", or just "-" *)
Definition operand (w : bytes) : Prop := match w with c :: _ :: _ => c <> minus | _ => True end.
(* the words [ws] give the options [l], in that order, and the operands [o] *)
Inductive spells (y : syntax) : list bytes -> list opt -> list bytes -> Prop :=
| sp_none : spells y [] [] []
| sp_rest o : spells y ([minus; minus] :: o) [] o                              (* -- *)
| sp_operand w ws l o : operand w -> spells y ws l o -> spells y (w :: ws) l (w :: o)
| sp_flags c cs ws l o : flags y (c :: cs) -> spells y ws l o ->               (* -abc *)
    spells y ((minus :: c :: cs) :: ws) (map plain (c :: cs) ++ l) o
| sp_joined cs c v ws l o : flags y cs -> In (c, true) (sy_short y) -> v <> [] -> spells y ws l o ->     (* -pNAME, -abpNAME *)
    spells y ((minus :: cs ++ c :: v) :: ws) (map plain cs ++ (c, Some v) :: l) o
| sp_next cs c v ws l o : flags y cs -> In (c, true) (sy_short y) -> spells y ws l o ->                  (* -p NAME *)
    spells y ((minus :: cs ++ [c]) :: v :: ws) (map plain cs ++ (c, Some v) :: l) o
| sp_long n c ws l o : stands_for y n false c -> n <> [] -> ~ In equals n -> spells y ws l o ->          (* --all *)
    spells y ((minus :: minus :: n) :: ws) ((c, None) :: l) o
| sp_long_joined n c v ws l o : stands_for y n true c -> ~ In equals n -> spells y ws l o ->             (* --part=NAME *)
    spells y ((minus :: minus :: n ++ equals :: v) :: ws) ((c, Some v) :: l) o
| sp_long_next n c v ws l o : stands_for y n true c -> n <> [] -> ~ In equals n -> spells y ws l o ->    (* --part NAME *)
    spells y ((minus :: minus :: n) :: v :: ws) ((c, Some v) :: l) o.

(* ---- the commands ---- *)
Inductive verb := Create | Add | Set_ | Delete | Extract | Sign | Verify | Transport | Show | Compare | Generate.
Definition verb_name (v : verb) : bytes :=
  bytes_of match v with
  | Create => "create" | Add => "add" | Set_ => "set" | Delete => "delete" | Extract => "extract" | Sign => "sign" | Verify => "verify"
  | Transport => "transport" | Show => "show" | Compare => "compare" | Generate => "generate" end.
Definition o_ (long short : string) (a : bool) : bytes * bool * Z := (bytes_of long, a, ch short).
Definition longs_of (v : verb) : list (bytes * bool * Z) :=
  [o_ "help" "h" false; o_ "verbose" "v" false] ++
  match v with
  | Create => [o_ "force" "Y" false; o_ "hash-kind" "H" true; o_ "signature-kind" "S" true]
  | Add => [o_ "part" "p" true; o_ "meta" "m" true; o_ "from-file" "f" true; o_ "from-string" "s" true; o_ "encoder" "e" true;
            o_ "set-flag" "F" true; o_ "part-ref" "r" true]
  | Set_ => [o_ "meta" "m" true; o_ "from-string" "s" true; o_ "encoder" "e" true; o_ "key-id" "k" true; o_ "keystore-id" "i" true]
  | Delete => [o_ "part" "p" true; o_ "all" "a" false; o_ "keep-meta" "k" false]
  | Extract => [o_ "meta" "m" true; o_ "part" "p" true; o_ "output" "o" true; o_ "part-ref" "r" true]
  | Sign => [o_ "key" "k" true; o_ "signature" "f" true]
  | Verify => [o_ "key" "k" true; o_ "keystore" "K" true]
  | Transport => [o_ "add" "a" false; o_ "origin" "O" true; o_ "output" "o" true; o_ "encoder" "e" true; o_ "decoder" "d" true;
                  o_ "encode" "E" false; o_ "decode" "D" false; o_ "part-ref" "r" true]
  | Show => [o_ "meta" "m" true; o_ "part" "p" true; o_ "part-hash" "P" true; o_ "hash" "H" false; o_ "binary-hash" "B" false]
  | Compare => []
  | Generate => [o_ "name" "n" true; o_ "decorate" "d" false]
  end%string.
(* the one-letter forms: all of the above, except -D, which does not exist;
   "set -p X", "transport -s X" and "transport -G" are taken but refused later *)
Definition short_of (v : verb) : list (Z * bool) :=
  match v with
  | Set_ => [(ch "h", false); (ch "v", false); (ch "p", true); (ch "m", true); (ch "s", true); (ch "e", true); (ch "k", true); (ch "i", true)]
  | Transport => [(ch "h", false); (ch "v", false); (ch "a", false); (ch "o", true); (ch "s", true); (ch "O", true); (ch "e", true);
                  (ch "d", true); (ch "E", false); (ch "G", false); (ch "r", true)]
  | _ => map (fun x => (snd x, snd (fst x))) (longs_of v)
  end%string.
Definition syntax_of (v : verb) : syntax := mkSyntax (short_of v) (longs_of v).
(* what the last occurrence of an option says *)
Definition last_given (l : list opt) (c : Z) : option (option bytes) := option_map snd (find (fun x => fst x =? c) (rev l)).
Definition has (l : list opt) (s : string) : bool := match last_given l (ch s) with Some _ => true | None => false end.
Definition val (l : list opt) (s : string) : option bytes := match last_given l (ch s) with Some (Some b) => Some b | _ => None end.
(* an option with an effect *)
Definition usable (v : verb) (x : opt) : Prop :=
  In (fst x) (map snd (longs_of v)) /\ fst x <> ch "h" /\
  (v = Add -> fst x = ch "F" -> snd x = Some (bytes_of "dont-hash")).
(* options that do not make a command *)
Definition ident (a : option bytes) : Z := match a with Some s => arg_id s | None => 0 end.
Definition incomplete (v : verb) (l : list opt) : Prop :=
  match v with
  | Add => (val l "p" = None /\ val l "m" = None) \/ (val l "f" = None /\ val l "s" = None)
  | Set_ => (val l "m" <> None /\ val l "s" = None) \/ (val l "m" = None /\ has l "k" = false /\ has l "i" = false)
  | Delete => has l "a" = false /\ ident (val l "p") = 0
  | Extract => (0 < ident (val l "p") <-> 0 < ident (val l "m"))
  | Transport => (has l "a" = true /\ has l "E" = true) \/ (has l "a" = true /\ has l "D" = true) \/ (has l "E" = true /\ has l "D" = true)
  | _ => False
  end.
(* two outcomes nobody can tell apart *)
Definition same_outcome (a b : outcome) : Prop :=
  (forall path, fst (fst a) path = fst (fst b) path) /\ snd (fst a) = snd (fst b) /\ snd a = snd b.
(* no file changed, nothing printed, no success *)
Definition nothing_done (fs : fsys) (a : outcome) : Prop :=
  (forall p, fst (fst a) p = fs p) /\ snd (fst a) = PNothing /\ snd a <> Some (Ok tt).
(* the options of the tool itself, before the command *)
Definition syntax_main : syntax := mkSyntax [(ch "h", false); (ch "V", false)] [o_ "help" "h" false; o_ "version" "V" false].

(* the command (of CliSpec.v) that options on the package [path] ask for *)
Inductive means (e : env) (fs : fsys) (path : bytes) (l : list opt) : verb -> cmd -> Prop :=
| mn_create : (fs path = None \/ has l "Y" = true \/ en_answer e = Some (ch "Y")) ->
    means e fs path l Create (CCreate (val l "H") (val l "S"))
| mn_part name d data : val l "m" = None -> val l "e" = None -> val l "p" = Some name -> val l "f" = Some d -> d <> path -> fs d = Some data ->
    means e fs path l Add (CAddPart name data (has l "F"))
| mn_tree name d data : val l "m" = None -> val l "e" = Some (bytes_of "merkle") -> val l "p" = Some name -> val l "f" = Some d ->
    d <> path -> fs d = Some data ->
    means e fs path l Add (CAddMerkle name data (en_salt e) (has l "F"))
| mn_meta_string name s : val l "m" = Some name -> val l "s" = Some s ->
    means e fs path l Add (CAddMeta name (val l "r") (FromString s) (val l "e"))
| mn_meta_file name d : val l "m" = Some name -> val l "s" = None -> val l "f" = Some d ->
    means e fs path l Add (CAddMeta name (val l "r") (FromFile (fs d)) (val l "e"))
| mn_set name s : val l "m" = Some name -> val l "s" = Some s ->
    means e fs path l Set_ (CSetMeta name s (val l "e"))
| mn_ids : val l "m" = None -> has l "k" = true \/ has l "i" = true ->
    means e fs path l Set_ (CSetIds (val l "k") (val l "i"))
| mn_delete name : has l "a" = false -> val l "p" = Some name -> arg_id name <> 0 ->
    means e fs path l Delete (CDelete name (has l "k"))
| mn_delete_all : has l "a" = true -> means e fs path l Delete (CDeleteAll (has l "k"))
| mn_extract name : val l "p" = Some name -> 0 < arg_id name -> ident (val l "m") = 0 -> val l "o" = None ->
    means e fs path l Extract (CExtractPart name)
| mn_extract_meta name : val l "m" = Some name -> 0 < arg_id name -> ident (val l "p") = 0 -> val l "o" = None ->
    means e fs path l Extract (CExtractMeta name (val l "r"))
| mn_sign s : val l "f" = Some s -> means e fs path l Sign (CSignRaw (fs s))
| mn_transport part enc dec : has l "a" = true -> has l "E" = false -> has l "D" = false -> val l "O" = None ->
    val l "r" = Some part -> val l "e" = Some enc -> val l "d" = Some dec ->
    means e fs path l Transport (CTransportAdd part enc dec).
(* what an action leaves: the package's new content, what it prints, its result *)
Definition leaves (fs : fsys) (path : bytes) (x : bytes * option bytes * res unit) : outcome :=
  let '(f1, out, r) := x in (fs_put fs path f1, match out with Some b => PData b | None => PNothing end, Some r).
(* running it on the package *)
Definition performed (sha : hashfn) (fs : fsys) (path : bytes) (c : cmd) (f : bytes) : outcome :=
  let '(f1, out, r) := run_cmd sha c f in
  (fs_put fs path f1, match out with Some b => PData b | None => PNothing end, Some r).
(* options that are taken but change nothing *)
Definition idle (v : verb) (l : list opt) (c : Z) : Prop :=
  c = ch "v" \/
  match v with
  | Create => False
  | Add => (val l "m" <> None /\ (c = ch "p" \/ c = ch "F" \/ (c = ch "f" /\ val l "s" <> None))) \/
           (val l "m" = None /\ (c = ch "r" \/ (c = ch "s" /\ val l "f" <> None)))
  | Set_ => (val l "m" <> None /\ (c = ch "k" \/ c = ch "i")) \/ (val l "m" = None /\ (c = ch "s" \/ c = ch "e"))
  | Delete => has l "a" = true /\ c = ch "p"
  | Extract => ident (val l "m") <= 0 /\ c = ch "r"
  | Sign => val l "f" <> None /\ c = ch "k"
  | Verify => val l "k" <> None /\ c = ch "K"
  | Transport => ((has l "E" = true \/ has l "D" = true) /\ (c = ch "e" \/ c = ch "d" \/ c = ch "r")) \/
                 (has l "E" = false /\ has l "D" = false /\ c = ch "o")
  | Show => ((val l "m" <> None \/ val l "p" <> None) /\ (c = ch "P" \/ c = ch "H" \/ c = ch "B")) \/
            (val l "P" <> None /\ (c = ch "H" \/ c = ch "B")) \/ (has l "B" = true /\ c = ch "H")
  | Compare | Generate => False
  end.
Definition without (c : Z) (l : list opt) : list opt := filter (fun x => negb (fst x =? c)) l.
