(* EncodeSpec.v -- conditions under which a package can be encoded *)
From Verif Require Import Base HeaderModel CrcModel HashModel MerkleModel VerifyModel PkgSpec PkgHistory CliSpec UpdateSpec BspatchModel BsdiffModel HsModel HsPatchModel LzModel TransportModel TransportSpec.

(* differencing succeeds with the suffix array [sa], and the patch takes at
   most 2^55 bytes *)
Definition makes_patch (lib : lzlib) (s : setting) (o n : bytes) (sa : list Z) : Prop :=
  exists f k, match s with
              | PatchHs => bsdiff_hs o n sa [] 0
              | PatchLz => bsdiff_lz (lz_enc lib) o n sa [] 0
              | _ => bsdiff_none o n sa [] 0
              end = Ok (f, k) /\ k <= 2^55.
(* every patch can be made, and LZMA patches only in a build with LZMA *)
Definition makes_patches (bld : build) (sais : bytes -> option (list Z)) (eo es : list (parth * bytes)) (st : Z -> setting) : Prop :=
  forall e o, In e es -> In o eo -> p_id (fst o) = p_id (fst e) -> patched (st (p_id (fst e))) ->
    (st (p_id (fst e)) = PatchLz -> b_lzma bld = true) /\
    exists sa, sais (snd o) = Some sa /\ makes_patch (b_lib bld) (st (p_id (fst e))) (snd o) (snd e) sa.

(* the same for two releases ([file_stored]: the file with its padding):
   differencing finishes (C34 tells when), LZMA patches are of reasonable size *)
Definition can_encode (bld : build) (sais : bytes -> option (list Z)) (new old : world) (st : Z -> setting) : Prop :=
  forall f g, In f (w_files new) -> In g (w_files old) -> f_id g = f_id f -> patched (st (f_id f)) ->
    exists sa, sais (file_stored g) = Some sa /\
      match st (f_id f) with
      | PatchLz => b_lzma bld = true /\ exists x k, bsdiff_lz (lz_enc (b_lib bld)) (file_stored g) (file_stored f) sa [] 0 = Ok (x, k) /\ k <= 2^55
      | _ => zlen (f_data f) < 2^46 /\ exists l, bsdiff_chunks (file_stored g) (file_stored f) sa = Ok l
      end.
