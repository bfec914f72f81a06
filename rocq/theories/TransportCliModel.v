(* TransportCliModel.v -- bpak transport --encode / --decode (src/transport.c),
   on a file system of named files.  Definitions only.
   Option scanning is not modelled; a path names one file (no links). *)
From Verif Require Import Base HeaderModel CrcModel HashModel MerkleModel VerifyModel PkgModel BspatchModel BsdiffModel HsModel HsPatchModel LzModel TransportModel.

Definition fsys := bytes -> option bytes.
Definition fs_put (fs : fsys) (path content : bytes) : fsys := fun p => if bytes_eqb p path then Some content else fs p.

(* lib/pkg.c:25-91 with mode "rb+": an existing file *)
Definition open_rw (sha : hashfn) (fs : fsys) (path : bytes) : fsys * res pkg :=
  match fs path with
  | None => (fs, Err E_NOT_FOUND)
  | Some f => let (f', r) := pkg_open sha true f in (fs_put fs path f', r)
  end.
(* with mode "wb+": the file is emptied, or made *)
Definition open_new (sha : hashfn) (fs : fsys) (path : bytes) : fsys * res pkg :=
  let (f', r) := pkg_open sha true [] in (fs_put fs path f', r).

(* struct bpak_package origin (src/transport.c:113) without --origin: whatever
   the stack holds *)
Record garbage := mkGarbage { ga_fp_null : bool; ga_header : header }.
Inductive tverb := TEncode | TDecode.

(* src/transport.c:115-125: input, and origin if given *)
Definition t_open (sha : hashfn) (fs : fsys) (input : bytes) (origin : option bytes) : fsys * res (pkg * option pkg) :=
  match open_rw sha fs input with
  | (fs1, Ok p) =>
      match origin with
      | None => (fs1, Ok (p, None))
      | Some o => match open_rw sha fs1 o with
                  | (fs2, Ok q) => (fs2, Ok (p, Some q))
                  | (fs2, Err e) => (fs2, Err e) | (fs2, UB) => (fs2, UB) | (fs2, Stuck) => (fs2, Stuck)
                  end
      end
  | (fs1, Err e) => (fs1, Err e) | (fs1, UB) => (fs1, UB) | (fs1, Stuck) => (fs1, Stuck)
  end.
(* :148-156 with three different files.  [&origin] is passed also without
   --origin.  Encoding then goes by the garbage stream pointer (lib/pkg.c:399),
   decoding by the garbage header; a garbage stream, and a garbage header that
   passes the uuid check, are taken as undefined behaviour at once *)
Definition t_run (bld : build) (sha : hashfn) (sais : bytes -> option (list Z)) (ga : garbage) (v : tverb) (p : pkg) (origin : option pkg) (o : pkg)
    : bytes * res unit :=
  match v with
  | TEncode =>
      match origin with
      | Some q => let (pe, r) := transport_encode bld sais p (pk_header o) (pk_file o) (Some q) in (pk_file pe, r)
      | None => if ga_fp_null ga
                then let (pe, r) := transport_encode bld sais p (pk_header o) (pk_file o) None in (pk_file pe, r)
                else (pk_file o, UB)
      end
  | TDecode =>
      match origin with
      | Some q => let '(_, f, r) := transport_decode bld sha p (pk_file o) (Some q) in (f, r)
      | None => (pk_file o, match set_origin (ga_header ga) (pk_header p) with Err e => Err e | _ => UB end)
      end
  end.
(* :115-187, --encode or --decode.  None: the output is one of the inputs, which
   at that point is empty but for the fresh header; not followed any further *)
Definition cli_transport (bld : build) (sha : hashfn) (sais : bytes -> option (list Z)) (ga : garbage) (fs : fsys) (v : tverb)
    (input : bytes) (origin output : option bytes) : fsys * option (res unit) :=
  match t_open sha fs input origin with
  | (fs1, Ok (p, q)) =>
      match output with
      | None => (fs1, Some (Err (-1)))
      | Some out =>
          match open_new sha fs1 out with
          | (fs2, Ok o) =>
              if bytes_eqb out input || match origin with Some x => bytes_eqb out x | None => false end then (fs2, None)
              else let (f, r) := t_run bld sha sais ga v p q o in (fs_put fs2 out f, Some r)
          | (fs2, Err e) => (fs2, Some (Err e)) | (fs2, UB) => (fs2, Some UB) | (fs2, Stuck) => (fs2, Some Stuck)
          end
      end
  | (fs1, Err e) => (fs1, Some (Err e)) | (fs1, UB) => (fs1, Some UB) | (fs1, Stuck) => (fs1, Some Stuck)
  end.

(* ---- python/python_wrapper.c:62-138 ------------------------------------ *)
(* the objects of the input and output packages, opened for writing, and of the
   origin: header in memory and file.  Results: the objects afterwards *)
Definition py_transport_encode (bld : build) (sais : bytes -> option (list Z)) (i o : pkg) (q : option pkg) : pkg * pkg * res unit :=
  let (o', r) := transport_encode bld sais i (pk_header o) (pk_file o) q in (i, o', r).
(* decoding works on the input object's header (lib/pkg.c:265, 279) and does not
   touch the output object's *)
Definition py_transport_decode (bld : build) (sha : hashfn) (i o : pkg) (q : option pkg) : pkg * pkg * res unit :=
  let '(h, f, r) := transport_decode bld sha i (pk_file o) q in (mkPkg h (pk_file i), mkPkg (pk_header o) f, r).
