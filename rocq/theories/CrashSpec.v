(* CrashSpec.v -- what a crash can leave behind, and what has to survive it *)
From Verif Require Import Base HeaderModel HeaderSpec HashModel VerifyModel PkgModel CrashModel PkgSpec.

(* [crashed torn f ops g]: the process dies while performing [ops] on a file
   with content [f], leaving [g]: some of the operations are complete, and the
   one under way, if it writes data, has written a prefix of its bytes.
   [torn]: whether the 4096-byte header write can be cut short as well. *)
Inductive crashed (torn : bool) : bytes -> list fsop -> bytes -> Prop :=
| cr_stop f ops : crashed torn f ops f
| cr_data f pos b1 b2 ops : crashed torn f (FsData pos (b1 ++ b2) :: ops) (fwrite_at f pos b1)
| cr_header f b1 b2 ops : torn = true -> crashed torn f (FsHeader (b1 ++ b2) :: ops) (fwrite_at f 0 b1)
| cr_next f o ops g : crashed torn (fs_apply f o) ops g -> crashed torn f (o :: ops) g.

(* the file operations of an API call on an open package *)
Definition ops_of (sha : hashfn) (p : pkg) (o : pkg_op) : list fsop :=
  match o with
  | OAdd name data flags => add_file_ops sha p data name flags
  | ODel id rm => delete_part_ops sha p id rm
  | ODelAll rm => delete_all_ops sha p rm
  | OExtract _ => []
  end.

(* a life of a package file: calls that return and calls that are killed,
   each on the freshly opened file *)
Inductive event := Done (o : pkg_op) | Killed (o : pkg_op).
Definition call_result (sha : hashfn) (p : pkg) (o : pkg_op) : bytes :=
  match o with
  | OAdd name data flags => pk_file (fst (pkg_add_file sha p data name flags))
  | ODel id rm => pk_file (fst (pkg_delete_part sha p id rm))
  | ODelAll rm => pk_file (fst (pkg_delete_all_parts sha p rm))
  | OExtract _ => pk_file p
  end.
(* does the call return? *)
Definition returned {A} (r : res A) : Prop := r <> Stuck.
Definition call_returns (sha : hashfn) (p : pkg) (o : pkg_op) : Prop :=
  match o with
  | OAdd name data flags => returned (snd (pkg_add_file sha p data name flags))
  | ODel id rm => returned (snd (pkg_delete_part sha p id rm))
  | ODelAll rm => returned (snd (pkg_delete_all_parts sha p rm))
  | OExtract id => returned (snd (pkg_extract_file p id))
  end.
(* files are below 2^63 bytes (off_t) *)
Inductive life (sha : hashfn) (torn : bool) : list event -> bytes -> Prop :=
| life_new p : snd (pkg_open sha true []) = Ok p -> life sha torn [] (pk_file p)
| life_done evs f p o : life sha torn evs f -> snd (pkg_open sha true f) = Ok p ->
    zlen f < 2^63 -> call_returns sha p o -> life sha torn (evs ++ [Done o]) (call_result sha p o)
| life_killed evs f p o g : life sha torn evs f -> snd (pkg_open sha true f) = Ok p ->
    crashed torn f (ops_of sha p o) g -> life sha torn (evs ++ [Killed o]) g.
(* the files such a life may leave in the package: a killed call happened
   entirely or not at all *)
Inductive may_hold (idof : bytes -> Z) : list event -> list fentry -> Prop :=
| mh_new : may_hold idof [] []
| mh_done evs fs o : may_hold idof evs fs -> may_hold idof (evs ++ [Done o]) (fst (fst (spec_pkg_op idof fs o)))
| mh_killed_after evs fs o : may_hold idof evs fs -> may_hold idof (evs ++ [Killed o]) (fst (fst (spec_pkg_op idof fs o)))
| mh_killed_before evs fs o : may_hold idof evs fs -> may_hold idof (evs ++ [Killed o]) fs.

(* the file [f] is a usable package with exactly the files [fs]: it opens,
   every file can be extracted, nothing else is there, and the stored payload
   hash is the one of the data *)
Record usable (sha : hashfn) (f : bytes) (p : pkg) (fs : list fentry) : Prop := {
  us_open : pkg_open sha false f = (f, Ok p);
  us_files : forall x, In x fs -> pkg_extract_file p (f_id x) = (Some (f_data x), Ok tt);
  us_only : forall id, id <> 0 -> ~ In id (map f_id fs) -> pkg_extract_file p id = (None, Err E_NOT_FOUND);
  us_hash : compute_payload_hash sha (pk_header p) (file_rd f) 4096 64 =
            Ok (slice 0 (digest_len (h_hash_kind (pk_header p))) (h_payload_hash (pk_header p))) }.
