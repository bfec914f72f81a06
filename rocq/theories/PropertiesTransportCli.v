(* PropertiesTransportCli.v -- C75, C76: bpak transport --encode / --decode;
   C77: transport_encode and transport_decode of the Python module *)
From Verif Require Import Base BaseLemmas HeaderModel HeaderSpec CodecProofs PartProofs CrcModel HashModel MerkleModel MerkleSpec MerkleApi VerifyModel VerifySpec
  PkgModel PkgSpec PkgProofs PkgApi BspatchModel BsdiffModel HsModel HsPatchModel LzModel LzSpec LzWitness TransportModel TransportSpec TransportFile TransportMain TransportWitness
  PropertiesTransport PropertiesDecode TransportCliModel TransportCliProofs PyModel.
Local Open Scope Z_scope.
Local Open Scope list_scope.

(* C75: "bpak transport NEW --encode --origin OLD --output PATCH" followed by
   "bpak transport PATCH --decode --origin OLD --output OUT": OUT is NEW, byte
   for byte, and no other file but PATCH has changed.  [fs]: the files by name.
   Conditions on the packages: [transportable] and [origin_for] (C38) *)
Theorem C75_encode_then_decode_partial bld sha sais ga fs p es st q eo NEW OLD PATCH OUT r1 :
  (b_lzma bld = true -> lz_good (b_lib bld)) ->
  good_hash sha -> transportable sha p es st -> origin_for q eo p es ->
  valid_header (pk_header p) = Ok tt -> valid_header (pk_header q) = Ok tt ->
  fs NEW = Some (pk_file p) -> fs OLD = Some (pk_file q) ->
  PATCH <> NEW -> PATCH <> OLD -> OUT <> PATCH -> OUT <> OLD ->
  cli_transport bld sha sais ga fs TEncode NEW (Some OLD) (Some PATCH) = r1 -> snd r1 = Some (Ok tt) ->
  (forall g, fst r1 PATCH = Some g -> zlen g < 2^62) ->
  (forall x, x <> PATCH -> fst r1 x = fs x) /\
  exists fs2, cli_transport bld sha sais ga (fst r1) TDecode PATCH (Some OLD) (Some OUT) = (fs2, Some (Ok tt)) /\
    fs2 OUT = Some (pk_file p) /\ (forall x, x <> OUT -> fs2 x = fst r1 x).
Proof. intros L. exact (cli_roundtrip bld L sha sais ga fs p es st q eo NEW OLD PATCH OUT r1). Qed.
Print Assumptions C75_encode_then_decode_partial.
(* Violated: without --origin the program hands an uninitialised package to the
   decoder: it never succeeds, not even for packages that need no origin, and
   replaces the output by an empty package *)
Theorem C75_no_origin_refuted bld sha sais ga fs p IN OUT :
  good_hash sha -> fs IN = Some (pk_file p) -> pkg_open sha true (pk_file p) = (pk_file p, Ok p) -> OUT <> IN ->
  exists fs' r, cli_transport bld sha sais ga fs TDecode IN None (Some OUT) = (fs', Some r) /\ r <> Ok tt /\
    fs' OUT = Some (enc_header (fresh_header sha)) /\
    (no_meta (ga_header ga) 0xfb2f1f3f 0 -> r = Err E_NOT_FOUND).
Proof.
  intros G E O N.
  destruct (cli_ok bld sha sais ga fs TDecode IN None OUT p None _ _ G E O I N I eq_refl) as (fs' & C & F & _).
  do 2 eexists. split; [exact C|]. split; [destruct (set_origin _ _); discriminate|]. split; [exact F|].
  intros M. rewrite set_origin_missing; auto.
Qed.
Print Assumptions C75_no_origin_refuted.
(* although the library decodes such packages *)
Theorem C75_library_needs_no_origin bld sha p (es : list (parth * bytes)) g :
  good_hash sha -> holds p es -> es <> [] -> plain es -> Forall (fun e => p_transport_size (fst e) = 0) es -> zlen (pk_file p) < 2^62 ->
  transport_decode bld sha p g None = (pk_header p, fwrite_at g 0 (pk_file p), Ok tt).
Proof. intros A B C D E F. exact (C65_plain_package bld sha p es None g A B C D E F I). Qed.
Print Assumptions C75_library_needs_no_origin.

(* two releases of a product, parts padded to 512 bytes, one of them patched *)
Definition tc_part (id : Z) (d : bytes) : parth * bytes := (mkPart id (zlen d) 0 0 (512 - zlen d) 0 0, d ++ zeros (512 - zlen d)).
Definition tc_new : list (parth * bytes) := [ tc_part 200 [9;8;7]; tc_part 300 tw_new ].
Definition tc_old : list (parth * bytes) := [ tc_part 300 tw_old; tc_part 200 [1] ].
Lemma tc_transportable : transportable toy_sha (tw_pkg tc_new) tc_new tw_settings.
Proof.
  assert (H : tw_okb tc_new = true) by (vm_compute; reflexivity). destruct (tw_holds _ H) as [Hh Hz].
  destruct (tw_setting (map fst tc_new)) as (S1 & S2 & S3 & S4 & S5 & S6).
  constructor; try assumption.
  - discriminate.
  - repeat constructor.
  - repeat constructor.
  - assert (B : forallb (fun e : parth * bytes => forallb (fun x => (0 <=? x) && (x <? 256)) (snd e)) tc_new = true) by (vm_compute; reflexivity).
    rewrite forallb_forall in B. apply Forall_forall. intros e He. specialize (B e He). rewrite forallb_forall in B.
    unfold bytes_ok. apply Forall_forall. intros x Hx. specialize (B x Hx). unfold byte_ok. lia.
  - unfold tc_new at 2. unfold tw_settings. rewrite tree_id_eq. apply Forall_cons; [exact S2|]. apply Forall_cons; [exact S3|]. apply Forall_nil.
  - unfold tc_new at 2. unfold tw_settings. rewrite tree_id_eq. do 2 (apply Forall_cons; [discriminate|]). apply Forall_nil.
Qed.
Lemma tc_origin_for : origin_for (tw_pkg tc_old) tc_old (tw_pkg tc_new) tc_new.
Proof.
  assert (H : tw_okb tc_old = true) by (vm_compute; reflexivity). destruct (tw_holds _ H) as [Hh Hz].
  constructor; try assumption.
  - apply tw_uuids.
  - intros e He. assert (B : forallb (fun e : parth * bytes => existsb (fun o : parth * bytes => p_id (fst o) =? p_id (fst e)) tc_old) tc_new = true)
      by (vm_compute; reflexivity).
    rewrite forallb_forall in B. specialize (B e He). apply existsb_exists in B as (o & Ho & Eo). exists o. split; [exact Ho|]. now apply Z.eqb_eq.
Qed.
Definition tc_fs : fsys := fun x => if bytes_eqb x [110] then Some (pk_file (tw_pkg tc_new)) else if bytes_eqb x [111] then Some (pk_file (tw_pkg tc_old)) else None.
Definition tc_ga : garbage := mkGarbage true init_header.
Definition tc_r1 : fsys * option (res unit) := cli_transport tw_build toy_sha tw_sais tc_ga tc_fs TEncode [110] (Some [111]) (Some [112]).
Example C75_instance :
  good_hash toy_sha /\ transportable toy_sha (tw_pkg tc_new) tc_new tw_settings /\ origin_for (tw_pkg tc_old) tc_old (tw_pkg tc_new) tc_new /\
  valid_header (pk_header (tw_pkg tc_new)) = Ok tt /\ valid_header (pk_header (tw_pkg tc_old)) = Ok tt /\
  tc_fs [110] = Some (pk_file (tw_pkg tc_new)) /\ tc_fs [111] = Some (pk_file (tw_pkg tc_old)) /\
  snd tc_r1 = Some (Ok tt) /\ (forall g, fst tc_r1 [112] = Some g -> zlen g < 2^62).
Proof.
  split; [exact toy_sha_good|]. split; [exact tc_transportable|]. split; [exact tc_origin_for|].
  split; [vm_compute; reflexivity|]. split; [vm_compute; reflexivity|]. split; [reflexivity|]. split; [reflexivity|]. split; [vm_compute; reflexivity|].
  intros g H. assert (B : match fst tc_r1 [112] with Some g => zlen g <? 2^62 | None => false end = true) by (vm_compute; reflexivity).
  rewrite H in B. now apply Z.ltb_lt.
Qed.
Example C75_no_origin_instance : pkg_open toy_sha true (pk_file (tw_pkg tc_new)) = (pk_file (tw_pkg tc_new), Ok (tw_pkg tc_new)) /\
  no_meta (ga_header tc_ga) 0xfb2f1f3f 0.
Proof.
  split.
  - apply (reopen toy_sha true (tw_pkg tc_new) tc_new); [apply (tp_holds _ _ _ _ tc_transportable)|vm_compute; reflexivity].
  - apply Forall_forall. intros x Hx [A _]. cbn [tc_ga ga_header init_header h_meta] in Hx. apply repeat_spec in Hx as ->. discriminate A.
Qed.

(* C76: whatever the command does, only the output file changes (if the input
   files are at least as long as a header) *)
Theorem C76_only_the_output_changes bld sha sais ga fs v IN origin output fs' r :
  long_enough fs IN -> match origin with Some o => long_enough fs o | None => True end ->
  cli_transport bld sha sais ga fs v IN origin output = (fs', r) ->
  forall x, Some x <> output -> fs' x = fs x.
Proof. exact (cli_frame bld sha sais ga fs v IN origin output fs' r). Qed.
Print Assumptions C76_only_the_output_changes.
(* nothing changes if the input or the origin is missing or not a package, or
   if no output is named *)
Theorem C76_refused bld sha sais ga fs v IN origin output :
  long_enough fs IN -> match origin with Some o => long_enough fs o | None => True end ->
  (~ (exists f, fs IN = Some f /\ valid_header (dec_header (ztake 4096 f)) = Ok tt)) \/
  (match origin with Some o => ~ (exists f, fs o = Some f /\ valid_header (dec_header (ztake 4096 f)) = Ok tt) | None => False end) \/ output = None ->
  exists fs' e, cli_transport bld sha sais ga fs v IN origin output = (fs', Some (Err e)) /\ forall x, fs' x = fs x.
Proof. exact (cli_refused bld sha sais ga fs v IN origin output). Qed.
Print Assumptions C76_refused.
(* Violated: a command that fails has already replaced the output file by an
   empty package -- here because the origin is of another product *)
Theorem C76_failed_output_refuted bld sha sais ga fs p q IN OLD OUT oq op u v :
  good_hash sha -> fs IN = Some (pk_file p) -> pkg_open sha true (pk_file p) = (pk_file p, Ok p) ->
  fs OLD = Some (pk_file q) -> pkg_open sha true (pk_file q) = (pk_file q, Ok q) -> OUT <> IN -> OUT <> OLD ->
  uuid_at (pk_header q) oq u -> uuid_at (pk_header p) op v -> u <> v ->
  exists fs', cli_transport bld sha sais ga fs TEncode IN (Some OLD) (Some OUT) = (fs', Some (Err E_PACKAGE_UUID_MISMATCH)) /\
    fs' OUT = Some (enc_header (fresh_header sha)).
Proof.
  intros G E1 O1 E2 O2 N1 N2 U V D.
  assert (R : t_run bld sha sais ga TEncode p (Some q) (fresh_pkg sha) = (enc_header (fresh_header sha), Err E_PACKAGE_UUID_MISMATCH)).
  { cbn [t_run]. unfold transport_encode. rewrite (check_same_uuid_exact _ _ _ _ _ _ U V). rewrite (proj2 (bytes_eqb_neq u v) D). reflexivity. }
  destruct (cli_ok bld sha sais ga fs TEncode IN (Some OLD) OUT p (Some q) _ _ G E1 O1 (conj E2 O2) N1 N2 R) as (fs' & C & F & _).
  exists fs'. auto.
Qed.
Print Assumptions C76_failed_output_refuted.
(* Violated: naming the input as output empties it before it is read.  [None]:
   what happens next is not modelled; its parts are gone by then *)
Theorem C76_output_is_input_refuted bld sha sais ga fs v p IN :
  good_hash sha -> fs IN = Some (pk_file p) -> pkg_open sha true (pk_file p) = (pk_file p, Ok p) ->
  exists fs', cli_transport bld sha sais ga fs v IN None (Some IN) = (fs', None) /\ fs' IN = Some (enc_header (fresh_header sha)).
Proof.
  intros G E O. destruct (t_open_ok sha fs IN None p None E O I) as (fs1 & H1 & T).
  unfold cli_transport. rewrite T, (open_new_eq sha fs1 IN G), bytes_eqb_refl. cbn [orb]. eexists. split; [reflexivity|]. apply put_same.
Qed.
Print Assumptions C76_output_is_input_refuted.
(* Violated: an input shorter than a header is taken for a new package: a header
   is appended to it, even if the command then fails for want of an output *)
Theorem C76_short_input_refuted bld sha sais ga fs v (f : bytes) IN :
  good_hash sha -> fs IN = Some f -> zlen f < 4096 ->
  exists fs', cli_transport bld sha sais ga fs v IN None None = (fs', Some (Err (-1))) /\ fs' IN = Some (f ++ enc_header (fresh_header sha)).
Proof.
  intros G E L. destruct (open_short sha f G L) as [_ O]. unfold cli_transport, t_open, open_rw. rewrite E, O.
  eexists. split; [reflexivity|]. apply put_same.
Qed.
Print Assumptions C76_short_input_refuted.
(* Violated: a package without parts is decoded to an empty package without its
   metadata; the command succeeds *)
Theorem C76_no_parts_refuted bld sha sais ga fs p q IN OLD OUT :
  good_hash sha -> fs IN = Some (pk_file p) -> pkg_open sha true (pk_file p) = (pk_file p, Ok p) ->
  fs OLD = Some (pk_file q) -> pkg_open sha true (pk_file q) = (pk_file q, Ok q) -> OUT <> IN -> OUT <> OLD ->
  holds p [] -> same_uuid_same_place (pk_header q) (pk_header p) ->
  exists fs', cli_transport bld sha sais ga fs TDecode IN (Some OLD) (Some OUT) = (fs', Some (Ok tt)) /\
    fs' OUT = Some (enc_header (fresh_header sha)).
Proof.
  intros G E1 O1 E2 O2 N1 N2 Hp Su.
  assert (R : t_run bld sha sais ga TDecode p (Some q) (fresh_pkg sha) = (enc_header (fresh_header sha), Ok tt)).
  { cbn [t_run]. unfold transport_decode. rewrite (set_origin_ok _ _ (pk_header p) Su) by (unfold same_besides_table; destruct (pk_header p); reflexivity).
    unfold MAX_PARTS. cbn [decode_loop]. pose proof (ho_table _ _ Hp) as T. cbn [map app length] in T. change (32 - 0)%nat with 32%nat in T. rewrite T. reflexivity. }
  destruct (cli_ok bld sha sais ga fs TDecode IN (Some OLD) OUT p (Some q) _ _ G E1 O1 (conj E2 O2) N1 N2 R) as (fs' & C & F & _).
  exists fs'. auto.
Qed.
Print Assumptions C76_no_parts_refuted.
Example C76_instance : long_enough tc_fs [110] /\ long_enough tc_fs [111] /\ tc_fs [120] = None /\
  holds (tw_pkg []) [] /\ pkg_open toy_sha true (pk_file (tw_pkg [])) = (pk_file (tw_pkg []), Ok (tw_pkg [])) /\
  same_uuid_same_place (pk_header (tw_pkg tc_old)) (pk_header (tw_pkg [])) /\
  exists u v, u <> v /\ uuid_at (uuid_header 0 u) 0 u /\ uuid_at (uuid_header 16 v) 16 v.
Proof.
  split; [vm_compute; discriminate|]. split; [vm_compute; discriminate|]. split; [reflexivity|].
  assert (H : holds (tw_pkg []) []) by (apply tw_holds; vm_compute; reflexivity).
  split; [exact H|]. split; [apply (reopen toy_sha true (tw_pkg []) []); [exact H|vm_compute; reflexivity]|]. split; [apply tw_uuids|].
  exists tw_uuid, (zeros 16). split; [discriminate|]. split; apply uuid_header_at; try lia; reflexivity.
Qed.

(* C77: the Python functions.  Encoding and decoding with package objects gives
   the package back in the output's file *)
Theorem C77_encode_then_decode_partial bld sha sais p es st q o pe g :
  (b_lzma bld = true -> lz_good (b_lib bld)) ->
  good_hash sha -> transportable sha p es st ->
  match q with None => True | Some q => exists eo, origin_for q eo p es end ->
  py_transport_encode bld sais p o q = (p, pe, Ok tt) -> zlen (pk_file pe) < 2^62 ->
  py_transport_decode bld sha pe g q = (mkPkg (pk_header p) (pk_file pe), mkPkg (pk_header g) (fwrite_at (pk_file g) 0 (pk_file p)), Ok tt).
Proof.
  intros L G T O E B. unfold py_transport_encode in E. destruct (transport_encode _ _ _ _ _ _) as [o' r] eqn:Et. injection E as -> ->.
  unfold py_transport_decode. rewrite (C38_encode_then_decode_partial bld sha sais p es st q _ _ pe (pk_file g) L G T O Et B). reflexivity.
Qed.
Print Assumptions C77_encode_then_decode_partial.
(* Violated: the output object does not learn of it.  Decoding into a new
   package (Package(name, 'wb+')): the file is the decoded package, but the
   object has no parts, and the next assignment writes its empty header over
   the decoded one: the file then has no parts either *)
Theorem C77_output_object_refuted bld sha pe p q n i' o' :
  good_hash sha -> 4096 <= zlen (pk_file p) -> 0 <= n < 2^64 ->
  transport_decode bld sha pe (pk_file (fresh_pkg sha)) q = (pk_header p, pk_file p, Ok tt) ->
  py_transport_decode bld sha pe (fresh_pkg sha) q = (i', o', Ok tt) ->
  let s := mkSt (mkPy (FpOpen true) o') [] in
  st_file s = pk_file p /\
  snd (py_step sha s KParts) = Val (VObjs []) /\
  snd (py_step sha s (KSet KeyId (AInt n))) = Val VNone /\
  dec_header (ztake 4096 (st_file (fst (py_step sha s (KSet KeyId (AInt n)))))) = set_attr (fresh_header sha) KeyId (u32 n) /\
  h_parts (set_attr (fresh_header sha) KeyId (u32 n)) = repeat zero_part 32.
Proof.
  intros G L Hn D E. unfold py_transport_decode in E. rewrite D in E. injection E as <- <-. cbv zeta.
  split; [reflexivity|]. split; [reflexivity|].
  assert (S : py_step sha (mkSt (mkPy (FpOpen true) (mkPkg (fresh_header sha) (pk_file p))) []) (KSet KeyId (AInt n)) =
    (mkSt (mkPy (FpOpen true) (pkg_write_header (mkPkg (set_attr (fresh_header sha) KeyId (u32 n)) (pk_file p)))) [], Val VNone)).
  { cbn [py_step]. unfold py_set_attr, as_uint. destruct (Z.ltb_spec n 0); [lia|]. destruct (Z.geb_spec n 18446744073709551616); [lia|]. reflexivity. }
  rewrite S. cbn [fst snd]. split; [reflexivity|]. split; [|reflexivity].
  assert (W : wf_header (set_attr (fresh_header sha) KeyId (u32 n))).
  { destruct (fresh_wf sha G). constructor; auto. change (h_key_id (set_attr (fresh_header sha) KeyId (u32 n))) with (u32 n). unfold u32. apply Z.mod_pos_bound. lia. }
  change (st_file _) with (fwrite_at (pk_file p) 0 (enc_header (set_attr (fresh_header sha) KeyId (u32 n)))).
  rewrite fwrite_0, ztake_app_l, ztake_all by (rewrite (zlen_enc_header _ W); lia). now apply dec_enc_header.
Qed.
Print Assumptions C77_output_object_refuted.
(* Violated: the input object is changed.  Its header now says that nothing is
   encoded; the next assignment writes that in front of the encoded data *)
Theorem C77_input_object_refuted bld sha pe o q n h1 f1 i' o' :
  wf_header (pk_header pe) -> 0 <= n < 2^64 ->
  transport_decode bld sha pe (pk_file o) q = (h1, f1, Ok tt) ->
  py_transport_decode bld sha pe o q = (i', o', Ok tt) ->
  let s := mkSt (mkPy (FpOpen true) i') [] in
  pk_file i' = pk_file pe /\
  st_file (fst (py_step sha s (KSet KeyId (AInt n)))) =
    fwrite_at (pk_file pe) 0 (enc_header (set_attr (with_parts (pk_header pe) (decoded_table (h_parts (pk_header pe)))) KeyId (u32 n))).
Proof.
  intros W Hn D E. unfold py_transport_decode in E. rewrite D in E. injection E as <- <-. cbv zeta. split; [reflexivity|].
  destruct (C65_decoded_header bld sha pe (pk_file o) q h1 f1 W D) as [-> _].
  cbn [py_step]. unfold py_set_attr, as_uint. destruct (Z.ltb_spec n 0); [lia|]. destruct (Z.geb_spec n 18446744073709551616); [lia|]. reflexivity.
Qed.
Print Assumptions C77_input_object_refuted.
Definition tc_enc : pkg := fst (transport_encode tw_build tw_sais (tw_pkg tc_new) (fresh_header toy_sha) (pk_file (fresh_pkg toy_sha)) (Some (tw_pkg tc_old))).
Example C77_instance :
  py_transport_encode tw_build tw_sais (tw_pkg tc_new) (fresh_pkg toy_sha) (Some (tw_pkg tc_old)) = (tw_pkg tc_new, tc_enc, Ok tt) /\
  zlen (pk_file tc_enc) < 2^62 /\ 4096 <= zlen (pk_file (tw_pkg tc_new)) /\
  transport_decode tw_build toy_sha tc_enc (pk_file (fresh_pkg toy_sha)) (Some (tw_pkg tc_old)) = (pk_header (tw_pkg tc_new), pk_file (tw_pkg tc_new), Ok tt) /\
  decoded_table (h_parts (pk_header tc_enc)) <> h_parts (pk_header tc_enc).
Proof.
  assert (E : transport_encode tw_build tw_sais (tw_pkg tc_new) (fresh_header toy_sha) (pk_file (fresh_pkg toy_sha)) (Some (tw_pkg tc_old)) = (tc_enc, Ok tt)).
  { unfold tc_enc. assert (X : snd (transport_encode tw_build tw_sais (tw_pkg tc_new) (fresh_header toy_sha) (pk_file (fresh_pkg toy_sha)) (Some (tw_pkg tc_old))) = Ok tt) by (vm_compute; reflexivity).
    rewrite <- X. apply surjective_pairing. }
  assert (X : forall g f : bytes, zlen g <= zlen f -> fwrite_at g 0 f = f) by (intros g f Hl; rewrite fwrite_0, zdrop_all, app_nil_r; auto).
  assert (L : zlen (pk_file tc_enc) < 2^62) by (apply Z.ltb_lt; vm_compute; reflexivity).
  split; [unfold py_transport_encode; change (pk_header (fresh_pkg toy_sha)) with (fresh_header toy_sha); rewrite E; reflexivity|].
  split; [exact L|]. split; [vm_compute; discriminate|]. split.
  - pose proof (C38_encode_then_decode_partial tw_build toy_sha tw_sais (tw_pkg tc_new) tc_new tw_settings (Some (tw_pkg tc_old)) (fresh_header toy_sha)
      (pk_file (fresh_pkg toy_sha)) tc_enc (pk_file (fresh_pkg toy_sha)) (fun _ => toy_lz_good) toy_sha_good tc_transportable (ex_intro _ tc_old tc_origin_for) E L) as Y.
    etransitivity; [exact Y|]. rewrite X; [reflexivity|]. apply Z.leb_le. vm_compute. reflexivity.
  - vm_compute. discriminate.
Qed.
