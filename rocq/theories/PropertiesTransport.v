(* PropertiesTransport.v -- C38, C39 *)
From Verif Require Import Base BaseLemmas HeaderModel HeaderSpec CodecProofs CrcModel HashModel MerkleModel MerkleSpec MerkleApi VerifyModel
  PkgSpec BspatchModel BsdiffModel HsModel HsPatchModel LzModel LzSpec LzWitness TransportModel TransportSpec TransportMain TransportWitness TransportRefuse ViewWitness.

(* C38: decoding what was encoded, against the same origin (or none), gives
   back the package: header and every byte of the file, whatever was in the two
   output files before and whatever the suffix arrays contained.
   Conditions: see [transportable] and [origin_for]; the refutations below show
   which of them the code needs.  [bld]: how bpak was built; if with LZMA, the
   contract of LzSpec.v is assumed of the library *)
Theorem C38_encode_then_decode_partial bld sha sais p es st origin oh0 g0 pe g :
  (b_lzma bld = true -> lz_good (b_lib bld)) ->
  good_hash sha -> transportable sha p es st ->
  match origin with None => True | Some q => exists eo, origin_for q eo p es end ->
  transport_encode bld sais p oh0 g0 origin = (pe, Ok tt) -> zlen (pk_file pe) < 2^62 ->
  transport_decode bld sha pe g origin = (pk_header p, fwrite_at g 0 (pk_file p), Ok tt).
Proof. intros L. exact (transport_roundtrip bld L sha sais p es st origin oh0 g0 pe g). Qed.
Print Assumptions C38_encode_then_decode_partial.
(* into a new file: exactly the original file *)
Theorem C38_decoded_file_partial bld sha sais p es st origin oh0 g0 pe :
  (b_lzma bld = true -> lz_good (b_lib bld)) ->
  good_hash sha -> transportable sha p es st ->
  match origin with None => True | Some q => exists eo, origin_for q eo p es end ->
  transport_encode bld sais p oh0 g0 origin = (pe, Ok tt) -> zlen (pk_file pe) < 2^62 ->
  transport_decode bld sha pe [] origin = (pk_header p, pk_file p, Ok tt).
Proof.
  intros L A B C D E. rewrite (transport_roundtrip bld L sha sais p es st origin oh0 g0 pe [] A B C D E).
  rewrite TransportFile.fwrite_0, zdrop_nil, app_nil_r. reflexivity.
Qed.
Print Assumptions C38_decoded_file_partial.
(* what travels: a well-formed package with the same header apart from the part
   table; parts without transport settings unchanged, others flagged, their
   size kept, the length of what is stored recorded *)
Theorem C38_encoded_package bld sha sais p es st origin oh0 pe :
  (b_lzma bld = true -> lz_good (b_lib bld)) ->
  transportable sha p es st ->
  match origin with None => True | Some q => exists eo, origin_for q eo p es end ->
  transport_encode bld sais p oh0 [] origin = (pe, Ok tt) -> zlen (pk_file pe) < 2^62 ->
  exists cs, holds pe cs /\ same_besides_table (pk_header p) (pk_header pe) /\
    Forall2 (fun e c => stored_as (st (p_id (fst e))) e c) es cs.
Proof. intros L. exact (encoded_holds bld L sha sais p es st origin oh0 pe). Qed.
Print Assumptions C38_encoded_package.
(* six parts: one travels as it is, one is patched, two are patched with
   compression, one is regenerated, one is copied *)
Example C38_instance :
  b_lzma tw_build = true /\ lz_good (b_lib tw_build) /\ good_hash toy_sha /\ transportable toy_sha (tw_pkg tw_target) tw_target tw_settings /\
  origin_for (tw_pkg tw_origin) tw_origin (tw_pkg tw_target) tw_target /\
  let r := transport_encode tw_build tw_sais (tw_pkg tw_target) init_header [] (Some (tw_pkg tw_origin)) in
  snd r = Ok tt /\ zlen (pk_file (fst r)) = 4096 + 4096 + 94 + 0 + 3 + 29 + 189.
Proof. split; [reflexivity|]. split; [exact toy_lz_good|]. exact (conj toy_sha_good (conj tw_transportable (conj tw_origin_for tw_encodes))). Qed.

(* the full claim is false of the code: *)
(* - a part the origin does not have is encoded (copied), but cannot be decoded *)
Theorem C38_extra_part_refuted : exists bld p es q eo sais pe,
  holds p es /\ holds q eo /\ same_uuid_same_place (pk_header q) (pk_header p) /\
  transport_encode bld sais p init_header [] (Some q) = (pe, Ok tt) /\
  snd (transport_decode bld toy_sha pe [] (Some q)) = Err E_NOT_FOUND.
Proof.
  exists tw_build, (tw_pkg tw_extra), tw_extra, (tw_pkg tw_extra_origin), tw_extra_origin, tw_sais, (fst tw_extra_enc).
  destruct extra_part_not_decodable as (A & B & C & D & E). split; [exact A|]. split; [exact B|]. split; [exact C|].
  split; [|exact E]. rewrite <- D. unfold tw_extra_enc. destruct (transport_encode _ _ _ _ _ _); reflexivity.
Qed.
Print Assumptions C38_extra_part_refuted.
(* - a package without parts is "decoded" to nothing: not even its header *)
Theorem C38_empty_package_refuted bld sha sais p q oh0 g0 g pe :
  holds p [] -> holds q [] -> same_uuid_same_place (pk_header q) (pk_header p) ->
  transport_encode bld sais p oh0 g0 (Some q) = (pe, Ok tt) ->
  transport_decode bld sha pe g (Some q) = (pk_header pe, g, Ok tt).
Proof. exact (empty_package_lost bld sha sais p q oh0 g0 g pe). Qed.
Print Assumptions C38_empty_package_refuted.
Example C38_empty_package_instance :
  holds (tw_pkg []) [] /\ snd (transport_encode tw_build tw_sais (tw_pkg []) init_header [] (Some (tw_pkg []))) = Ok tt.
Proof. exact empty_package_encodes. Qed.
(* - parts that are already encoded are dropped without an error *)
Theorem C38_encoding_twice_refuted : exists bld p q sais pe,
  transport_encode bld sais p init_header [] (Some q) = (pe, Ok tt) /\ pk_header pe = pk_header p /\
  zlen (pk_file pe) < zlen (pk_file p).
Proof.
  destruct encoding_twice_loses_data as (A & B & C & D).
  exists tw_build, tw_once, (tw_pkg tw_extra_origin), tw_sais, (fst tw_twice). split; [|split; [exact A|lia]].
  rewrite <- B. unfold tw_twice. destruct (transport_encode _ _ _ _ _ _); reflexivity.
Qed.
Print Assumptions C38_encoding_twice_refuted.
(* - encoding against an origin is undefined unless both packages have a uuid *)
Theorem C38_no_uuid_refuted bld sais p q oh0 out :
  no_meta (pk_header q) 0xfb2f1f3f 0 \/ no_meta (pk_header p) 0xfb2f1f3f 0 ->
  snd (transport_encode bld sais p oh0 out (Some q)) = UB.
Proof. intros H. unfold transport_encode. rewrite (check_missing _ _ H). reflexivity. Qed.
Print Assumptions C38_no_uuid_refuted.

(* C39: an origin is accepted iff its own uuid equals the origin's bytes at the
   place where the patch keeps its uuid; the patch's uuid is never looked at *)
Theorem C39_set_origin_exact q p oq op u v : uuid_at q oq u -> uuid_at p op v ->
  set_origin q p = if bytes_eqb u (slice op 16 (h_metadata q)) then Ok tt else Err E_PACKAGE_UUID_MISMATCH.
Proof. exact (set_origin_exact q p oq op u v). Qed.
Print Assumptions C39_set_origin_exact.
(* so every foreign origin with the same metadata layout is accepted *)
Theorem C39_foreign_origin_accepted_refuted q p o u v : uuid_at q o u -> uuid_at p o v -> set_origin q p = Ok tt.
Proof. exact (set_origin_same_place q p o u v). Qed.
Print Assumptions C39_foreign_origin_accepted_refuted.
(* and the right origin may be refused *)
Theorem C39_right_origin_refused_refuted : exists q p oq op u,
  uuid_at q oq u /\ uuid_at p op u /\ set_origin q p = Err E_PACKAGE_UUID_MISMATCH.
Proof.
  exists (uuid_header 0 tw_uuid), (uuid_header 16 tw_uuid), 0, 16, tw_uuid.
  split; [apply uuid_header_at; reflexivity || lia|]. split; [apply uuid_header_at; reflexivity || lia|]. exact set_origin_refuses_right.
Qed.
Print Assumptions C39_right_origin_refused_refuted.
(* what holds: the right origin with the same layout is accepted, and a missing
   uuid is an error *)
Theorem C39_set_origin_partial q p :
  (same_uuid_same_place q p -> set_origin q p = Ok tt) /\
  (no_meta q 0xfb2f1f3f 0 \/ no_meta p 0xfb2f1f3f 0 -> set_origin q p = Err E_NOT_FOUND).
Proof. split; [intros (o & u & A & B); exact (set_origin_same_place q p o u u A B)|exact (set_origin_missing q p)]. Qed.
Print Assumptions C39_set_origin_partial.
(* the encoder does compare the two uuids, before it writes anything *)
Theorem C39_encoder_compares_uuids bld sais p q oh0 out oq op u v :
  uuid_at (pk_header q) oq u -> uuid_at (pk_header p) op v -> u <> v ->
  transport_encode bld sais p oh0 out (Some q) = (mkPkg oh0 out, Err E_PACKAGE_UUID_MISMATCH).
Proof.
  intros A B N. unfold transport_encode. rewrite (check_same_uuid_exact _ _ _ _ _ _ A B).
  destruct (bytes_eqb u v) eqn:E; [apply bytes_eqb_eq in E; contradiction|reflexivity].
Qed.
Print Assumptions C39_encoder_compares_uuids.
Example C39_instance :
  uuid_at (uuid_header 0 tw_uuid) 0 tw_uuid /\ uuid_at (uuid_header 0 (zeros 16)) 0 (zeros 16) /\ tw_uuid <> zeros 16 /\
  set_origin (uuid_header 0 (zeros 16)) (uuid_header 0 tw_uuid) = Ok tt.
Proof.
  split; [apply uuid_header_at; reflexivity || lia|]. split; [apply uuid_header_at; reflexivity || lia|].
  split; [discriminate|vm_compute; reflexivity].
Qed.

(* C38: a build without LZMA refuses a package with an LZMA patch *)
Theorem C38_lzma_refused : forall bld sha p (es : list (parth * bytes)) f origin e m b, b_lzma bld = false -> holds p es -> In e es ->
  Z.testbit (p_flags (fst e)) 1 = true ->
  get_meta (pk_header p) ID_BPAK_TRANSPORT (p_id (fst e)) = Ok m -> meta_read (pk_header p) m 4 4 = Ok b -> unle b = ID_BSPATCH_LZMA ->
  snd (transport_decode bld sha p f origin) <> Ok tt.
Proof. exact TransportRefuse.decode_refuses. Qed.
Print Assumptions C38_lzma_refused.
Definition lr_ms : list mentry := [ViewWitness.vw_uuid; mkEntry ID_BPAK_TRANSPORT 5 (le 4 ID_BSDIFF_LZMA ++ le 4 ID_BSPATCH_LZMA ++ zeros 24)].
Definition lr_es : list (parth * bytes) := [ViewWitness.vw_part 4 4096 512 0; (mkPart 5 1024 4608 77 0 2 0, repeat 1 77)].
Example C38_lzma_refused_instance : exists p, holds p lr_es /\
  get_meta (pk_header p) ID_BPAK_TRANSPORT 5 = Ok 1%nat /\ meta_read (pk_header p) 1 4 4 = Ok (le 4 ID_BSPATCH_LZMA) /\ unle (le 4 ID_BSPATCH_LZMA) = ID_BSPATCH_LZMA /\
  snd (transport_decode (mkBuild false (b_lib tw_build)) toy_sha p [] (Some p)) = Err E_UNSUPPORTED_COMPRESSION.
Proof.
  exists (ViewWitness.vw_pkg lr_ms lr_es). split; [|repeat split; vm_compute; reflexivity].
  assert (X : ViewWitness.vw_okb lr_ms lr_es = true) by (vm_compute; reflexivity). exact (proj1 (ViewWitness.vw_ok _ _ X)).
Qed.
