(* ViewSpec.v -- what `bpak compare`, `bpak show` and `bpak generate keystore`
   are expected to print.  [mark], [cline], [sline] and [gkey] (ViewModel.v) are
   the kinds of lines; nothing else of the model is used. *)
From Coq Require Import String.
From Verif Require Import Base HeaderModel HeaderSpec CrcModel VerifyModel PkgSpec UtilSpec CliSpec ViewModel.
Local Open Scope Z_scope.
Local Open Scope list_scope.

(* the text of an entry: a version is a C string, the other ids as in C49 *)
Definition shown_text (e : mentry) (s : bytes) : Prop :=
  if e_id e =? ID_BPAK_VERSION then s = before_nul (e_val e) else entry_text (e_id e) (e_val e) s.
Definition hash_entry (e : mentry) : Prop := e_id e = ID_MERKLE_SALT \/ e_id e = ID_MERKLE_ROOT_HASH.
(* entries whose text fits in [n] bytes, [n] at least 37 *)
Definition printable (n : Z) (e : mentry) : Prop :=
  expected_size (e_id e) <= zlen (e_val e) /\ (hash_entry e -> 65 <= n) /\
  (e_id e = ID_BPAK_VERSION -> In 0 (e_val e) /\ zlen (e_val e) <= n).

(* a package with the metadata entries [ms] and the parts [es] *)
Definition package (p : pkg) (ms : list mentry) (es : list (parth * bytes)) : Prop :=
  holds p es /\ valid_header (pk_header p) = Ok tt /\ metas_are (h_meta (pk_header p)) (h_metadata (pk_header p)) ms.

(* ---- the difference of two packages ---- *)
Definition bytes_dec (a b : bytes) : {a = b} + {a <> b} := list_eq_dec Z.eq_dec a b.
Definition parth_dec (p q : parth) : {p = q} + {p <> q}.
Proof. decide equality; apply Z.eq_dec. Defined.
Definition same_key (e e' : mentry) : bool := (e_id e' =? e_id e) && (e_ref e' =? e_ref e).
Definition same_id (e e' : parth * bytes) : bool := p_id (fst e') =? p_id (fst e).
(* marks as the legend of the command explains them *)
Definition meta_mark (ms2 : list mentry) (e : mentry) : mark :=
  match find (same_key e) ms2 with
  | Some e2 => if bytes_dec (e_val e) (e_val e2) then MSame else MStar
  | None => MMinus
  end.
Definition part_mark (es2 : list (parth * bytes)) (e : parth * bytes) : mark :=
  match find (same_id e) es2 with
  | Some e2 => if parth_dec (fst e) (fst e2) then if bytes_dec (snd e) (snd e2) then MSame else MStar else MStar
  | None => MMinus
  end.
(* the bytes of the file from the part on *)
Fixpoint behind (id : Z) (es : list (parth * bytes)) : Z :=
  match es with
  | [] => 0
  | e :: r => if p_id (fst e) =? id then zlen (concat (map snd (e :: r))) else behind id r
  end.
Inductive rline := RMeta (k : mark) (e : mentry) | RPart (k : mark) (p : parth).
Definition report (added : mark) (ms1 : list mentry) (es1 : list (parth * bytes)) (ms2 : list mentry) (es2 : list (parth * bytes)) : list rline :=
  map (fun e => RMeta (meta_mark ms2 e) e) ms1 ++
  map (RMeta MPlus) (filter (fun e => negb (existsb (same_key e) ms1)) ms2) ++
  map (fun e => RPart (part_mark es2 e) (fst e)) es1 ++
  map (fun e => RPart added (fst e)) (filter (fun e => negb (existsb (same_id e) es1)) es2).
(* the printed line *)
Definition line_is (c : cline) (r : rline) : Prop :=
  match c, r with
  | LMeta k m s, RMeta k' e => k = k' /\ m_id m = e_id e /\ m_ref m = e_ref e /\ m_size m = zlen (e_val e) /\ shown_text e s
  | LPart k p, RPart k' p' => k = k' /\ p = p'
  | _, _ => False
  end.
(* what the command returns: the search for the last thing it looked for *)
Definition compare_status (ms1 : list mentry) (es1 : list (parth * bytes)) (ms2 : list mentry) (es2 : list (parth * bytes)) : res unit :=
  match rev es2, rev es1, rev ms2 with
  | e :: _, _, _ => if existsb (same_id e) es1 then Ok tt else Err E_NOT_FOUND
  | [], _ :: _, _ => Err E_NOT_FOUND
  | [], [], m :: _ => if existsb (same_key m) ms1 then Ok tt else Err E_NOT_FOUND
  | [], [], [] => Ok tt
  end.

(* ---- show ---- *)
(* the header with the digest of the payload as it is in the file *)
Definition current_header (sha : Z -> bytes -> bytes) (h : header) (es : list (parth * bytes)) : header :=
  let d := sha (h_hash_kind h) (covered es) in
  HeaderModel.with_payload_hash h (d ++ zdrop (zlen d) (h_payload_hash h)).
(* the hash that is signed and shown *)
Definition header_digest (sha : Z -> bytes -> bytes) (h : header) : bytes := sha (h_hash_kind h) (enc_header (VerifySpec.unsigned h)).
Definition hex_lower (s d : bytes) : Prop := hex_text s d /\ lower_case s.
Definition show_line (c : sline) (r : sline) : Prop :=
  match c, r with
  | SHash a b, SHash hd pd => hex_lower a hd /\ hex_lower b pd
  | SMeta _ _, _ => False
  | _, _ => c = r
  end.
Definition show_entry (c : sline) (e : mentry) : Prop :=
  match c with
  | SMeta m s => m_id m = e_id e /\ m_ref m = e_ref e /\ m_size m = zlen (e_val e) /\ shown_text e s
  | _ => False
  end.
(* head, entries, parts, hashes and the warning *)
Definition show_report (sha : Z -> bytes -> bytes) (p : pkg) (ms : list mentry) (es : list (parth * bytes)) (ls : list sline) : Prop :=
  let h := pk_header p in
  exists mls hl, ls = [SHead (h_hash_kind h) (h_signature_kind h) (h_key_id h) (h_keystore_id h)] ++ mls ++
                 map (fun e => SPart (fst e)) es ++ [hl] ++
                 (if bytes_dec (h_payload_hash (current_header sha h es)) (h_payload_hash h) then [] else [SWarn]) /\
    Forall2 show_entry mls ms /\
    show_line hl (SHash (header_digest sha (current_header sha h es)) (sha (h_hash_kind h) (covered es))).
(* the entry a --meta argument selects *)
Definition selects (id : Z) (part : option Z) (e : mentry) : bool :=
  (e_id e =? id) && match part with Some p => p =? e_ref e | None => true end.
(* the data of a part: what is stored without the padding *)
Definition part_data (e : parth * bytes) : bytes :=
  ztake (zlen (snd e) - (if Z.testbit (p_flags (fst e)) 1 then 0 else p_pad_bytes (fst e))) (snd e).

(* ---- generate keystore ---- *)
(* the keys of the source: one for each part, what the parser makes of its data *)
Definition key_of (parse : bytes -> res KeystoreModel.key) (e : parth * bytes) (g : gkey) : Prop :=
  exists k, parse (part_data e) = Ok k /\ gk_id g = p_id (fst e) /\ gk_kind g = KeystoreModel.k_kind k /\ gk_data g = KeystoreModel.k_data k /\
    gk_size g = p_size (fst e).
(* key kinds with a name in the source: EC public keys and RSA *)
Definition key_part (parse : bytes -> res KeystoreModel.key) (e : parth * bytes) : Prop :=
  exists k, parse (part_data e) = Ok k /\ 1 <= KeystoreModel.k_kind k <= 4 /\ p_size (fst e) <= 4096.
Definition id_package : Z := bpak_id (bytes_of "bpak-package"%string).
Definition id_provider : Z := bpak_id (bytes_of "keystore-provider-id"%string).
