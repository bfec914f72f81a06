(* UpdateSpec.v -- releases of a product, as a user of the commands sees them *)
From Coq Require Import String.
From Verif Require Import Base HeaderModel HeaderSpec CrcModel HashModel MerkleSpec VerifyModel PkgSpec PkgHistory UtilModel CliModel CliSpec TransportSpec.
Local Open Scope Z_scope.

(* the file [f] was made by "bpak create" followed by any number of commands
   within the tool's limits; [w]: its contents *)
Inductive made (sha : hashfn) : bytes -> world -> Prop :=
| made_create hash sign hk sk f0 : hash_named hash = Some hk -> sign_named sign = Some sk ->
    made sha (fst (fst (run_cmd sha (CCreate hash sign) f0))) (mkWorld hk sk 0 0 [] [] [])
| made_cmd f w c w' : made sha f w -> fits w c = true ->
    stored sha (fst (fst (run_cmd sha c f))) w' -> made sha (fst (fst (run_cmd sha c f))) w'.

(* the algorithms named in "bpak transport --add" *)
Definition algorithms (s : setting) : option (string * string) :=
  match s with
  | AsIs => None
  | Patch => Some ("bsdiff-no-comp", "bspatch-no-comp")
  | PatchHs => Some ("bsdiff", "bspatch")
  | PatchLz => Some ("bsdiff-lzma", "bspatch-lzma")
  | Tree => Some ("remove-data", "merkle-generate")
  end%string.
Definition idn (s : string) : Z := bpak_id (bytes_of s).
(* the transport setting of the file with this id *)
Definition travels_as (w : world) (id : Z) (s : setting) : Prop :=
  match algorithms s with
  | None => forall e, In e (w_metas w) -> ~ (e_id e = idn "bpak-transport" /\ e_ref e = id)
  | Some (enc, dec) => exists e rest, In e (w_metas w) /\ e_id e = idn "bpak-transport" /\ e_ref e = id /\
      e_val e = le 4 (idn enc) ++ le 4 (idn dec) ++ rest
  end.
(* [t] is the hash tree of an earlier file *)
Definition tree_file (sha : hashfn) (w : world) (t : fentry) : Prop :=
  exists a d b c salt ls, w_files w = a ++ d :: b ++ t :: c /\ f_id t = part_id_to_hash_tree_id (f_id d) /\
    In (mkEntry (idn "merkle-salt") (f_id d) salt) (w_metas w) /\ zlen salt = 32 /\
    0 < zlen (f_data d) <= 2^33 /\ zlen (f_data d) mod 4096 = 0 /\ hash_levels sha salt (f_data d) ls /\ f_data t = hash_tree ls.
(* [new] can be sent as an update of [old] *)
Record update (sha : hashfn) (new old : world) (st : Z -> setting) : Prop := {
  up_some : w_files new <> [];
  up_travel : forall f, In f (w_files new) -> travels_as new (f_id f) (st (f_id f));
  up_trees : forall f, In f (w_files new) -> st (f_id f) = Tree -> tree_file sha new f;
  (* the same package uuid, at the same place of the metadata block *)
  up_uuid : exists u a b c d, zlen u = 16 /\ meta_end a = meta_end c /\
    w_metas new = a ++ mkEntry (idn "bpak-package") 0 u :: b /\ w_metas old = c ++ mkEntry (idn "bpak-package") 0 u :: d;
  up_files : forall f, In f (w_files new) -> exists g, In g (w_files old) /\ f_id g = f_id f;
  up_size : world_size new < 2^62 /\ world_size old < 2^62 }.
