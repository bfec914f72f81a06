(* PropertiesDecode.v -- C64, C65: decoding packages that nobody encoded *)
From Verif Require Import Base BaseLemmas HeaderModel HeaderSpec CodecProofs CrcModel HashModel MerkleModel MerkleSpec MerkleApi VerifyModel
  PkgSpec BspatchModel BsdiffModel HsModel HsPatchModel LzModel LzSpec LzWitness TransportModel TransportSpec TransportMain TransportWitness TransportTotal TransportSound TransportSane
  ViewWitness.
Local Open Scope Z_scope.
Local Open Scope list_scope.

(* C64: bpak_pkg_transport_decode returns for every header (that was read from
   4096 bytes), every file behind it (truncated, damaged, hostile), every origin
   and every output file.  [lz_progresses]: a call of the LZMA decoder that
   neither reads nor writes anything does not report success for ever *)
Theorem C64_decode_returns bld sha p f origin :
  (b_lzma bld = true -> lz_progresses (lz_dec (b_lib bld))) ->
  wf_header (pk_header p) -> match origin with Some q => zlen (pk_file q) < 2^63 | None => True end ->
  snd (transport_decode bld sha p f origin) <> Stuck.
Proof. intros L. exact (transport_decode_total bld L sha p f origin). Qed.
Print Assumptions C64_decode_returns.

(* what is refused: a part that names an unknown algorithm *)
Theorem C64_unknown_algorithm_refused bld sha p (es : list (parth * bytes)) f origin part data enc dec :
  holds p es -> In (part, data) es -> Z.testbit (p_flags part) 1 = true ->
  0 <= enc < 2^32 -> 0 <= dec < 2^32 -> meta_starts (pk_header p) bpak_transport (p_id part) (le 4 enc ++ le 4 dec) ->
  ~ In dec [0; 0xb5964388; 0x75622592; 0x933a9893; 0xb5bcc58f] ->
  snd (transport_decode bld sha p f origin) <> Ok tt.
Proof. exact (refuse_unknown bld sha p es f origin (part, data) enc dec). Qed.
Print Assumptions C64_unknown_algorithm_refused.
(* a patch without an origin *)
Theorem C64_patch_needs_origin bld sha p (es : list (parth * bytes)) f part data s :
  holds p es -> In (part, data) es -> Z.testbit (p_flags part) 1 = true ->
  patched s -> has_setting (pk_header p) (p_id part) s ->
  snd (transport_decode bld sha p f None) <> Ok tt.
Proof.
  intros H I T Hp S. destruct Hp as [ -> | [ -> | -> ]]; cbn [has_setting] in S;
    (eapply (refuse_no_origin bld sha p es f (part, data) _ _ H I T); [| |exact S|cbn [In]; auto]; split; reflexivity || discriminate).
Qed.
Print Assumptions C64_patch_needs_origin.
(* a part (patched or not) which the origin does not have *)
Theorem C64_part_not_in_origin_refused bld sha p (es : list (parth * bytes)) f q (eo : list (parth * bytes)) part data :
  holds p es -> In (part, data) es -> holds q eo -> ~ In (p_id part) (map (fun o => p_id (fst o)) eo) ->
  snd (transport_decode bld sha p f (Some q)) <> Ok tt.
Proof. exact (refuse_not_in_origin bld sha p es f q eo (part, data)). Qed.
Print Assumptions C64_part_not_in_origin_refused.

(* instances: a part flagged as encoded with 77 bytes that are no patch at all *)
Definition dh_ms (dec : Z) : list mentry := [ViewWitness.vw_uuid; mkEntry 0x2d44bbfb 5 (le 4 7 ++ le 4 dec ++ zeros 24)].
Definition dh_es : list (parth * bytes) := [ViewWitness.vw_part 4 4096 512 0; (mkPart 5 1024 4608 77 0 2 0, repeat 201 77)].
Definition dh_pkg (dec : Z) : pkg := ViewWitness.vw_pkg (dh_ms dec) dh_es.
Lemma dh_holds dec : 0 <= dec < 2^32 -> ViewWitness.vw_okb (dh_ms dec) dh_es = true -> holds (dh_pkg dec) dh_es.
Proof. intros _ X. exact (proj1 (ViewWitness.vw_ok _ _ X)). Qed.
Lemma dh_meta dec pre m post : 
  h_meta (pk_header (dh_pkg dec)) = pre ++ m :: post -> m_id m = bpak_transport -> m_ref m = 5 ->
  forallb (fun x => negb ((m_id x =? bpak_transport) && (m_ref x =? 5))) pre = true ->
  m_offset m + 8 <= 1920 -> slice (m_offset m) 8 (h_metadata (pk_header (dh_pkg dec))) = le 4 7 ++ le 4 dec ->
  meta_starts (pk_header (dh_pkg dec)) bpak_transport 5 (le 4 7 ++ le 4 dec).
Proof.
  intros E I R F B V. assert (L : zlen (le 4 7 ++ le 4 dec) = 8) by (rewrite zlen_app, !zlen_le; reflexivity).
  exists pre, m, post. split; [exact E|]. split; [exact I|]. split; [exact R|].
  split; [|rewrite L; split; assumption].
  apply Forall_forall. intros x Hx [A C]. rewrite forallb_forall in F. specialize (F x Hx). rewrite A, C, !Z.eqb_refl in F. discriminate.
Qed.
Example C64_instance : b_lzma tw_build = true /\ lz_progresses (lz_dec (b_lib tw_build)) /\
  holds (dh_pkg 0xb5964388) dh_es /\ holds (dh_pkg 0x933a9893) dh_es /\
  snd (transport_decode tw_build toy_sha (dh_pkg 0xb5964388) [] (Some (dh_pkg 0xb5964388))) = Err E_PATCH_READ_ORIGIN_ERROR /\
  snd (transport_decode tw_build toy_sha (dh_pkg 0x933a9893) [] (Some (dh_pkg 0x933a9893))) = Err E_DECOMPRESSOR_ERROR.
Proof.
  split; [reflexivity|]. split; [exact toy_progresses|].
  do 2 (split; [apply dh_holds; [split; reflexivity || discriminate|vm_compute; reflexivity]|]).
  split; vm_compute; reflexivity.
Qed.
(* ... but not every package is safe to decode: a patch with a negative length
   (here: any bytes with the right bits set) is undefined behaviour, see C35 *)
Theorem C64_safe_refuted : exists bld sha p q (es : list (parth * bytes)),
  good_hash sha /\ holds p es /\ holds q es /\ snd (transport_decode bld sha p [] (Some q)) = UB.
Proof.
  exists tw_build, toy_sha, (dh_pkg 0x75622592), (dh_pkg 0x75622592), dh_es. split; [exact toy_sha_good|].
  do 2 (split; [apply dh_holds; [split; reflexivity || discriminate|vm_compute; reflexivity]|]). vm_compute. reflexivity.
Qed.
Print Assumptions C64_safe_refuted.
Example C64_unknown_instance : holds (dh_pkg 77) dh_es /\ In (mkPart 5 1024 4608 77 0 2 0, repeat 201 77) dh_es /\
  meta_starts (pk_header (dh_pkg 77)) bpak_transport 5 (le 4 7 ++ le 4 77) /\
  snd (transport_decode tw_build toy_sha (dh_pkg 77) [] (Some (dh_pkg 77))) = Err E_NOT_SUPPORTED.
Proof.
  split; [apply dh_holds; [split; reflexivity || discriminate|vm_compute; reflexivity]|]. split; [right; left; reflexivity|].
  split; [|vm_compute; reflexivity].
  apply (dh_meta 77 (firstn 1 (h_meta (pk_header (dh_pkg 77)))) (mkMeta 0x2d44bbfb 32 16 5 (zeros 4)) (skipn 2 (h_meta (pk_header (dh_pkg 77))))); vm_compute; congruence.
Qed.
Example C64_origin_instance : holds (tw_pkg tw_extra) tw_extra /\ In (tw_part 500 [1;2;3]) tw_extra /\
  holds (tw_pkg tw_extra_origin) tw_extra_origin /\ ~ In 500 (map (fun o => p_id (fst o)) tw_extra_origin) /\
  let pe := fst (transport_encode tw_build tw_sais (tw_pkg tw_target) init_header [] (Some (tw_pkg tw_origin))) in
  has_setting (pk_header pe) 300 Patch /\ has_setting (pk_header pe) 400 PatchHs /\
  snd (transport_decode tw_build toy_sha pe [] None) = Err E_PATCH_READ_ORIGIN_ERROR.
Proof.
  split; [exact (proj1 extra_part_not_decodable)|]. split; [right; left; reflexivity|].
  split; [exact (proj1 (proj2 extra_part_not_decodable))|]. split; [cbn; intros [X|[]]; discriminate|]. cbv zeta.
  assert (E : pk_header (fst (transport_encode tw_build tw_sais (tw_pkg tw_target) init_header [] (Some (tw_pkg tw_origin)))) =
    tw_header (firstn 6 (h_parts (pk_header (fst (transport_encode tw_build tw_sais (tw_pkg tw_target) init_header [] (Some (tw_pkg tw_origin)))))))) by (vm_compute; reflexivity).
  destruct (tw_setting (firstn 6 (h_parts (pk_header (fst (transport_encode tw_build tw_sais (tw_pkg tw_target) init_header [] (Some (tw_pkg tw_origin)))))))) as (_ & _ & A & B & _).
  rewrite <- E in A, B. split; [exact A|]. split; [exact B|]. vm_compute. reflexivity.
Qed.

(* C65: what success means.  The header returned is the package's with the
   transport state of its parts cleared and nothing else changed, and that
   header is what the output file starts with *)
Theorem C65_decoded_header bld sha p f origin h1 f1 :
  wf_header (pk_header p) -> transport_decode bld sha p f origin = (h1, f1, Ok tt) ->
  h1 = with_parts (pk_header p) (decoded_table (h_parts (pk_header p))) /\
  (match h_parts (pk_header p) with q :: _ => p_id q <> 0 | [] => False end -> ztake 4096 f1 = enc_header h1).
Proof. exact (decode_sound bld sha p f origin h1 f1). Qed.
Print Assumptions C65_decoded_header.
(* a package none of whose parts is encoded is copied *)
Theorem C65_plain_package bld sha p (es : list (parth * bytes)) origin g :
  good_hash sha -> holds p es -> es <> [] -> plain es ->
  Forall (fun e => p_transport_size (fst e) = 0) es -> zlen (pk_file p) < 2^62 ->
  match origin with None => True | Some q => exists eo, origin_for q eo p es end ->
  transport_decode bld sha p g origin = (pk_header p, fwrite_at g 0 (pk_file p), Ok tt).
Proof. exact (decode_plain bld sha p es origin g). Qed.
Print Assumptions C65_plain_package.
(* whatever the patches and trees in the package are (damaged, hostile): if
   decoding succeeds, the output is a well-formed package with the same parts,
   each as long as announced; nothing was written elsewhere, and parts that
   were not encoded hold their bytes.  Partial: packages and outputs below
   2^62 bytes, not without parts (see C38_empty_package_refuted) *)
Theorem C65_output_is_a_package_partial bld sha p (es : list (parth * bytes)) origin h1 f1 :
  (b_lzma bld = true -> lz_progresses (lz_dec (b_lib bld))) ->
  good_hash sha -> holds p es -> es <> [] -> zlen (pk_file p) < 2^62 -> 4096 + announced es < 2^62 ->
  transport_decode bld sha p [] origin = (h1, f1, Ok tt) ->
  exists es', holds (mkPkg h1 f1) es' /\ Forall2 decoded_as es es'.
Proof.
  intros L A B C D E F. destruct (decode_sane bld L sha p es origin [] h1 f1 A B C D E F) as (es' & G & H & I). exists es'.
  split; [|exact G]. rewrite H, TransportFile.fwrite_0, zdrop_nil, app_nil_r. exact I.
Qed.
Print Assumptions C65_output_is_a_package_partial.
(* into a file with old contents: what is behind the package stays *)
Theorem C65_output_file bld sha p (es : list (parth * bytes)) origin g h1 f1 :
  (b_lzma bld = true -> lz_progresses (lz_dec (b_lib bld))) ->
  good_hash sha -> holds p es -> es <> [] -> zlen (pk_file p) < 2^62 -> 4096 + announced es < 2^62 ->
  transport_decode bld sha p g origin = (h1, f1, Ok tt) ->
  exists es' fp, holds (mkPkg h1 fp) es' /\ Forall2 decoded_as es es' /\ f1 = fp ++ zdrop (zlen fp) g.
Proof.
  intros L A B C D E F. destruct (decode_sane bld L sha p es origin g h1 f1 A B C D E F) as (es' & G & H & I).
  exists es', (enc_header h1 ++ concat (map snd es')). split; [exact I|]. split; [exact G|]. rewrite H. apply TransportFile.fwrite_0.
Qed.
Print Assumptions C65_output_file.

(* a package nobody encoded: the part with id 5 is "patched" by records that
   copy one byte of the origin and add 511 of their own, and announces 512 *)
Definition dg_patch : bytes := le 8 1 ++ le 8 511 ++ le 8 0 ++ [1] ++ repeat 7 511.
Definition dg_es : list (parth * bytes) := [ViewWitness.vw_part 4 4096 512 0; (mkPart 5 512 4608 536 0 2 0, dg_patch); ViewWitness.vw_part 6 5120 512 3].
Definition dg_pkg : pkg := ViewWitness.vw_pkg (dh_ms 0x75622592) dg_es.
Example C65_instance : holds dg_pkg dg_es /\ dg_es <> [] /\ zlen (pk_file dg_pkg) < 2^62 /\ 4096 + announced dg_es < 2^62 /\
  let r := transport_decode tw_build toy_sha dg_pkg [] (Some dg_pkg) in
  snd r = Ok tt /\ map (fun q => (p_id q, part_size q)) (firstn 3 (h_parts (fst (fst r)))) = [(4, 512); (5, 512); (6, 512)] /\
  zlen (snd (fst r)) = 4096 + 3 * 512 /\ slice 4607 4 (snd (fst r)) = [0; 2; 7; 7] /\ slice 5119 2 (snd (fst r)) = [7; 3].
Proof.
  assert (X : ViewWitness.vw_okb (dh_ms 0x75622592) dg_es = true) by (vm_compute; reflexivity).
  split; [exact (proj1 (ViewWitness.vw_ok _ _ X))|]. split; [discriminate|]. split; [vm_compute; reflexivity|]. split; [vm_compute; reflexivity|].
  vm_compute. repeat split; reflexivity.
Qed.
Example C65_plain_instance : holds (tw_pkg tw_target) tw_target /\ plain tw_target /\ origin_for (tw_pkg tw_origin) tw_origin (tw_pkg tw_target) tw_target.
Proof. pose proof tw_transportable as T. split; [apply T|]. split; [apply T|exact tw_origin_for]. Qed.
