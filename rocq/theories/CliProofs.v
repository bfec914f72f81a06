(* CliProofs.v -- every command of the tool does what CliSpec says *)
From Coq Require Import String.
From Verif Require Import BaseLemmas HeaderModel HeaderSpec HeaderHistory CodecProofs PartProofs MetaProofs CrcModel CrcProofs HashModel
  MerkleModel MerkleSpec MerkleApi VerifyModel VerifySpec VerifyProofs VerifySign VerifyWitness PkgModel PkgSpec PkgProofs PkgAdd PkgDelete PkgHistory PkgApi PkgTrees PkgMerkle
  TransportFile UtilModel UtilSpec UtilParse CliModel CliSpec CliMeta CliArgs CliStep.
Local Open Scope Z_scope.

(* ---- the input of add --meta ---- *)
Lemma cstr_app (s : bytes) r : cstr (s ++ 0 :: r) = Some (before_nul (s ++ [0])).
Proof. induction s as [|c s IH]; [reflexivity|]. cbn [app cstr before_nul]. destruct (c =? 0); [reflexivity|]. now rewrite IH. Qed.
Lemma cstr_has (s : bytes) r : existsb (fun b => b =? 0) s = true -> cstr (s ++ r) = Some (before_nul s).
Proof.
  induction s as [|c s IH]; [discriminate|]. cbn [existsb app cstr before_nul]. destruct (c =? 0); [reflexivity|].
  cbn [orb]. intros H. now rewrite IH.
Qed.
Lemma before_nul_end (s : bytes) : before_nul (s ++ [0]) = before_nul s.
Proof. induction s as [|c s IH]; [reflexivity|]. cbn [app before_nul]. destruct (c =? 0); [reflexivity|]. now rewrite IH. Qed.
Lemma all_bytes_ok s : all_bytes s = true <-> bytes_ok s.
Proof.
  unfold all_bytes, bytes_ok. rewrite forallb_forall, Forall_forall. unfold byte_ok. split; intros H x Hx; specialize (H x Hx); lia.
Qed.
Lemma text_bytes_ok s : text s = true -> bytes_ok s.
Proof.
  unfold text, bytes_ok. rewrite forallb_forall, Forall_forall. unfold byte_ok. intros H x Hx. specialize (H x Hx). lia.
Qed.
Lemma bytes_ok_before s : bytes_ok s -> bytes_ok (before_nul s).
Proof. induction 1 as [|c s Hc _ IH]; cbn [before_nul]; [constructor|]. destruct (c =? 0); constructor; auto. Qed.
Lemma u8_byte x : byte_ok (u8 x).
Proof. unfold byte_ok, u8. pose proof (Z.mod_pos_bound x 256). lia. Qed.
Lemma uuid_parse_ok s u : uuid_parse s = Ok u -> bytes_ok u.
Proof.
  unfold uuid_parse. destruct (negb _); [discriminate|]. destruct (negb _); [discriminate|]. intros E. injection E as <-.
  unfold uuid_pack. apply bytes_ok_app. split.
  - repeat (constructor; [apply u8_byte|]). constructor.
  - apply bytes_ok_ztake. cbn [node]. repeat (constructor; [apply u8_byte|]). constructor.
Qed.
Lemma uuid_parse_cases s : (exists u, uuid_parse s = Ok u) \/ uuid_parse s = Err (-1).
Proof.
  unfold uuid_parse. destruct (negb _); [auto|]. destruct (negb _); [auto|]. left. eexists. reflexivity.
Qed.
Lemma splice_in_zeros (b : bytes) n : zlen b <= n -> splice 0 b (zeros n) = b ++ zeros (n - zlen b).
Proof.
  intros H. pose proof (zlen_nonneg b). unfold splice. rewrite ztake_0, Z.add_0_l. cbn [app]. f_equal.
  unfold zeros, zdrop. replace (Z.to_nat n) with (Z.to_nat (zlen b) + Z.to_nat (n - zlen b))%nat by lia.
  rewrite repeat_app, skipn_app, repeat_length, Nat.sub_diag, skipn_all2 by (rewrite repeat_length; lia). reflexivity.
Qed.
Definition src_ok (src : source) (enc : option bytes) : bool :=
  match src with
  | FromString s => text s
  | FromFile None => true
  | FromFile (Some c) => all_bytes c && (zlen c <=? 1920) &&
      match enc with None => true | Some _ => existsb (fun b => b =? 0) c || (zlen c <? 1920) end
  end.
(* once the buffer is read *)
Lemma encode_ok (raw : bytes) enc : bytes_ok raw -> zlen raw <= 1920 ->
  (enc <> None -> existsb (fun b => b =? 0) raw = true \/ zlen raw < 1920) ->
  let v := encode_input enc (splice 0 raw (zeros METADATA_BYTES)) (zlen raw) in
  v = (if is enc "uuid" then match uuid_parse (before_nul raw) with Ok u => Ok u | _ => Err E_FAILED end
      else if is enc "integer" then match strtol0 (before_nul raw) with Some v => Ok (le 8 (v mod 2^64)) | None => Err E_FAILED end
      else if is enc "id" then Ok (le 4 (bpak_id (before_nul raw)))
      else match enc with None => Ok raw | Some _ => Err E_NOT_SUPPORTED end) /\
  match v with Ok b => bytes_ok b | Err _ => True | _ => False end.
Proof.
  intros B L T. unfold METADATA_BYTES. rewrite splice_in_zeros by exact L. unfold encode_input.
  destruct enc as [e|]; cbn [is].
  2:{ assert (X : ztake (zlen raw) (raw ++ zeros (1920 - zlen raw)) = raw) by (rewrite ztake_app_l, ztake_all by lia; reflexivity).
      rewrite X. auto. }
  assert (C : cstr (raw ++ zeros (1920 - zlen raw)) = Some (before_nul raw)).
  { destruct (existsb (fun b => b =? 0) raw) eqn:E.
    - now apply cstr_has.
    - destruct (T ltac:(discriminate)) as [X|X]; [congruence|].
      replace (zeros (1920 - zlen raw)) with (0 :: zeros (1920 - zlen raw - 1)).
      + rewrite cstr_app. now rewrite before_nul_end.
      + unfold zeros. replace (Z.to_nat (1920 - zlen raw)) with (S (Z.to_nat (1920 - zlen raw - 1))) by lia. reflexivity. }
  rewrite C. destruct (bytes_eqb e (bytes_of "uuid")).
  { destruct (uuid_parse_cases (before_nul raw)) as [[u E]|E]; rewrite E; cbn zeta iota; auto. split; auto. eapply uuid_parse_ok; eauto. }
  destruct (bytes_eqb e (bytes_of "integer")).
  { destruct (strtol0 (before_nul raw)); cbn zeta iota; auto. unfold u64. split; [reflexivity|]. apply bytes_ok_le. }
  destruct (bytes_eqb e (bytes_of "id")); cbn zeta iota; auto. split; auto. apply bytes_ok_le.
Qed.
Lemma input_ok src enc : src_ok src enc = true ->
  (do (buf, len) <- read_source src; encode_input enc buf len) = meta_value src enc /\
  match meta_value src enc with Ok v => bytes_ok v | Err _ => True | _ => False end.
Proof.
  intros S. destruct src as [s|[c|]]; cbn [src_ok] in S.
  - assert (Bs : bytes_ok (s ++ [0])).
    { apply bytes_ok_app. split; [now apply text_bytes_ok|]. constructor; [unfold byte_ok; lia|constructor]. }
    assert (Ls : zlen (s ++ [0]) = zlen s + 1) by (rewrite zlen_app; reflexivity).
    unfold read_source, meta_value. unfold METADATA_BYTES at 1. rewrite Ls.
    destruct (Z.ltb_spec 1920 (zlen s + 1)) as [H|H]; destruct (Z.gtb_spec (zlen s + 1) 1920) as [H'|H']; try (exfalso; lia); [cbn [bind]; auto|].
    cbn [bind]. rewrite <- Ls. destruct (encode_ok (s ++ [0]) enc Bs ltac:(lia)) as [E1 E2].
    { intros _. left. rewrite existsb_app. cbn. apply orb_true_r. }
    cbn zeta in E1, E2. rewrite E1 in E2. split; [exact E1|exact E2].
  - apply andb_prop in S as [S1 S2]. apply andb_prop in S1 as [S0 S1]. apply all_bytes_ok in S0.
    unfold read_source, meta_value. destruct c as [|x c'] eqn:Ec; [cbn; auto|]. rewrite <- Ec in *.
    assert (Lc : 0 < zlen c) by (rewrite Ec, zlen_cons; pose proof (zlen_nonneg c'); lia).
    assert (Tc : ztake METADATA_BYTES c = c) by (apply ztake_all; unfold METADATA_BYTES; lia).
    rewrite Tc. destruct (Z.eqb_spec (zlen c) 0) as [?|_]; [lia|]. destruct (Z.ltb_spec 1920 (zlen c)) as [?|_]; [lia|].
    cbn [bind]. destruct (encode_ok c enc S0 ltac:(lia)) as [E1 E2].
    { intros Hn. destruct enc; [|congruence]. apply orb_prop in S2 as [S2|S2]; [auto|right; lia]. }
    cbn zeta in E1, E2. rewrite E1 in E2. split; [exact E1|exact E2].
  - cbn. auto.
Qed.

(* ---- the stored relation ---- *)
Definition settings (h : header) (w : world) : Prop :=
  h_hash_kind h = w_hash w /\ h_signature_kind h = w_sign w /\ h_key_id h = w_key w /\ h_keystore_id h = w_keystore w /\
  h_signature_sz h = zlen (w_sig w) /\ slice 0 (h_signature_sz h) (h_signature h) = w_sig w.
Record st (sha : hashfn) (p : pkg) (w : world) : Prop := {
  st_inv : pkg_inv sha p (w_files w);
  st_hm : hm (pk_header p) (w_metas w);
  st_set : settings (pk_header p) w }.
Lemma inv_wf sha p fs : pkg_inv sha p fs -> wf_header (pk_header p).
Proof. intros [(es & H & _) _ _ _ _ _]. apply (ho_wf _ _ H). Qed.
Lemma stored_st sha f w : stored sha f w <-> exists p, pk_file p = f /\ st sha p w.
Proof.
  unfold stored. split; intros (p & E & R); exists p; (split; [exact E|]).
  - destruct R as (I & M & L & N & S). constructor; auto. constructor; auto. eapply inv_wf; eauto.
  - destruct R as [I [W M L N] S]. unfold settings in S. tauto.
Qed.
Lemma st_open sha p w : st sha p w -> pkg_open sha true (pk_file p) = (pk_file p, Ok p).
Proof. intros [[(es & H & _) _ V _ _ _] _ _]. eapply reopen; eauto. Qed.
Lemma st_size sha p w : st sha p w -> zlen (pk_file p) = world_size w.
Proof. intros [I _ _]. exact (pkg_inv_size _ _ _ I). Qed.
Lemma sbpm_fields h h' : same_besides_parts_meta h h' ->
  h_magic h' = h_magic h /\ h_hash_kind h' = h_hash_kind h /\ h_signature_kind h' = h_signature_kind h /\
  h_key_id h' = h_key_id h /\ h_keystore_id h' = h_keystore_id h /\ h_signature_sz h' = h_signature_sz h /\ h_signature h' = h_signature h.
Proof. unfold same_besides_parts_meta. intros ->. destruct h; cbn. auto 10. Qed.
Lemma sbm_fields h h' : same_but_meta h h' ->
  h_magic h' = h_magic h /\ h_parts h' = h_parts h /\ h_hash_kind h' = h_hash_kind h /\ h_payload_hash h' = h_payload_hash h /\
  h_signature_kind h' = h_signature_kind h /\
  h_key_id h' = h_key_id h /\ h_keystore_id h' = h_keystore_id h /\ h_signature_sz h' = h_signature_sz h /\ h_signature h' = h_signature h.
Proof. unfold same_but_meta. intros ->. destruct h; cbn. auto 10. Qed.
Lemma settings_same h h' w : same_besides_parts_meta h h' -> settings h w -> settings h' w.
Proof.
  intros S. destruct (sbpm_fields _ _ S) as (_ & E2 & E3 & E4 & E5 & E6 & E7). unfold settings. rewrite E2, E3, E4, E5, E6, E7. auto.
Qed.
Lemma settings_meta h h' w : same_but_meta h h' -> settings h w -> settings h' w.
Proof.
  intros S. destruct (sbm_fields _ _ S) as (_ & _ & E2 & _ & E3 & E4 & E5 & E6 & E7). unfold settings. rewrite E2, E3, E4, E5, E6, E7. auto.
Qed.
Lemma settings_set_metas h w ms : settings h (set_metas w ms) = settings h w.
Proof. reflexivity. Qed.

(* a change of metadata only, written back *)
Lemma st_metas sha p w h' ms : st sha p w -> hm h' ms -> same_but_meta (pk_header p) h' ->
  st sha (mkPkg h' (fwrite_at (pk_file p) 0 (enc_header h'))) (set_metas w ms).
Proof.
  intros [I M S] M' S'. destruct (sbm_fields _ _ S') as (E0 & E1 & E2 & E3 & _). constructor; cbn [pk_header set_metas w_files w_metas]; auto.
  - eapply header_rewrite; eauto.
  - exact (settings_meta _ _ _ S' S).
Qed.
(* set reads the header itself *)
Lemma st_read sha p w k : st sha p w ->
  with_header (pk_file p) k =
    match k (pk_header p) with
    | (h, Ok _) => (fwrite_at (pk_file p) 0 (enc_header h), None, Ok tt)
    | (h, Err e) => (pk_file p, None, Err e)
    | (_, UB) => (pk_file p, None, UB)
    | (_, Stuck) => (pk_file p, None, Stuck)
    end.
Proof.
  intros [[(es & H & _) _ V _ _ _] _ _]. unfold with_header, fread_at. unfold HDR_SIZE.
  assert (Sl : slice 0 4096 (pk_file p) = enc_header (pk_header p)).
  { rewrite (ho_file _ _ H), slice_0, ztake_app_l, ztake_all by (rewrite zlen_enc_header by apply (ho_wf _ _ H); lia). reflexivity. }
  rewrite Sl, zlen_enc_header by apply (ho_wf _ _ H). rewrite Z.eqb_refl. cbn [negb]. rewrite dec_enc_header by apply (ho_wf _ _ H).
  rewrite V. reflexivity.
Qed.

(* what has to be shown of a command *)
Definition step_ok (sha : hashfn) (p : pkg) (w : world) (c : cmd) : Prop :=
  let '(f', out, r) := run_cmd sha c (pk_file p) in
  exists p' w', pk_file p' = f' /\ st sha p' w' /\ spec_cmd sha w c w' out r.

(* ---- commands that are package operations ---- *)
Lemma is_name_ok n : is_name n = true -> bytes_ok n /\ bpak_id n <> 0.
Proof. unfold is_name. intros H. apply andb_prop in H as [H1 H2]. split; [now apply text_bytes_ok|]. destruct (Z.eqb_spec (bpak_id n) 0); [discriminate|auto]. Qed.
Lemma flags_ok dh : 0 <= flags_of dh < 256 /\ Z.testbit (flags_of dh) 1 = false.
Proof. destruct dh; cbn; lia. Qed.
Lemma part_flags_eq dh : part_flags dh = flags_of dh.
Proof. destruct dh; reflexivity. Qed.

Lemma op_step sha p w o : good_hash sha -> st sha p w -> pkg_op_ok o -> zlen (pk_file p) + pkg_op_cost o <= 2^63 ->
  let '(p', x, y) := run_pkg_op sha p o in
  let '(fs', x', y') := spec_pkg_op bpak_id (w_files w) o in
  x = x' /\ y = y' /\ st sha p' (set_metas (set_files w fs') (op_metas (w_files w) o (w_metas w))).
Proof.
  intros G [I M S] Ok Hb. pose proof (pkg_step sha p (w_files w) o G I Ok Hb) as A.
  pose proof (pkg_step_frame sha p (w_files w) o (w_metas w) G I M Ok Hb) as B.
  destruct (run_pkg_op sha p o) as [[p' x] y]. destruct (spec_pkg_op bpak_id (w_files w) o) as [[fs' x'] y']. cbn [fst] in B.
  destruct A as (-> & -> & I' & _), B as [B1 B2]. split; auto. split; auto. constructor; auto.
  exact (settings_same _ _ _ B1 S).
Qed.
Lemma set_same w : set_metas (set_files w (w_files w)) (w_metas w) = w.
Proof. destruct w; reflexivity. Qed.

Section Steps.
Context (sha : hashfn) (G : good_hash sha) (p : pkg) (w : world) (Hst : st sha p w).

Lemma step_add_part name data dh : fits w (CAddPart name data dh) = true -> step_ok sha p w (CAddPart name data dh).
Proof.
  intros F. cbn [fits] in F. apply andb_prop in F as [F F3]. apply andb_prop in F as [F1 F2].
  destruct (is_name_ok _ F1) as [Bn Hid]. destruct (flags_ok dh) as [Hf1 Hf2].
  unfold step_ok. cbn [run_cmd]. unfold cli_add_part, with_package. rewrite (st_open _ _ _ Hst), part_flags_eq.
  pose proof (st_size _ _ _ Hst) as Sz.
  pose proof (op_step sha p w (OAdd name data (flags_of dh)) G Hst) as A. cbn [pkg_op_ok pkg_op_cost] in A.
  specialize (A ltac:(auto) ltac:(lia)). cbn [run_pkg_op op_metas] in A.
  destruct (pkg_add_file sha p data name (flags_of dh)) as [p' r]. cbn [spec_cmd].
  destruct (spec_pkg_op bpak_id (w_files w) (OAdd name data (flags_of dh))) as [[fs x'] y']. destruct A as (A1 & A2 & A3).
  exists p', (set_files w fs). split; [reflexivity|]. split; [|auto]. exact A3.
Qed.
Lemma step_delete part keep : fits w (CDelete part keep) = true -> step_ok sha p w (CDelete part keep).
Proof.
  intros F. cbn [fits] in F. unfold step_ok. cbn [run_cmd]. unfold cli_delete, with_package. rewrite id_arg_spec. cbn [spec_cmd].
  destruct (Z.eqb_spec (arg_id part) 0) as [E|E].
  - exists p, w. auto 10.
  - rewrite (st_open _ _ _ Hst).
    pose proof (op_step sha p w (ODel (arg_id part) (negb keep)) G Hst) as A. cbn [pkg_op_ok pkg_op_cost] in A.
    pose proof (pkg_files_bound _ _ _ (st_inv _ _ _ Hst)) as Bf.
    specialize (A E ltac:(lia)). cbn [run_pkg_op op_metas spec_pkg_op] in A.
    destruct (pkg_delete_part sha p (arg_id part) (negb keep)) as [p' r].
    destruct (existsb (fun f => f_id f =? arg_id part) (w_files w)) eqn:Ex; destruct A as (A1 & A2 & A3).
    + eexists p', _. split; [reflexivity|]. split; [exact A3|]. split; [reflexivity|]. split; [exact A2|]. destruct keep; reflexivity.
    + exists p', w. split; [reflexivity|]. split; [|auto]. destruct keep; cbn [negb] in A3; rewrite set_same in A3; exact A3.
Qed.
Lemma step_delete_all keep : step_ok sha p w (CDeleteAll keep).
Proof.
  unfold step_ok. cbn [run_cmd]. unfold cli_delete_all, with_package. cbn [spec_cmd]. rewrite (st_open _ _ _ Hst).
  pose proof (op_step sha p w (ODelAll (negb keep)) G Hst) as A. cbn [pkg_op_ok pkg_op_cost] in A.
  pose proof (pkg_files_bound _ _ _ (st_inv _ _ _ Hst)) as Bf.
  specialize (A I ltac:(lia)). cbn [run_pkg_op op_metas spec_pkg_op] in A.
  destruct (pkg_delete_all_parts sha p (negb keep)) as [p' r]. destruct A as (A1 & A2 & A3).
  eexists p', _. split; [reflexivity|]. split; [exact A3|]. split; [reflexivity|]. split; [exact A2|]. destruct keep; reflexivity.
Qed.
Lemma step_extract_part part : step_ok sha p w (CExtractPart part).
Proof.
  unfold step_ok. cbn [run_cmd]. unfold cli_extract_part, with_package. rewrite id_arg_spec. cbn [spec_cmd].
  destruct (Z.eqb_spec (arg_id part) 0) as [E|E].
  - exists p, w. auto 10.
  - rewrite (st_open _ _ _ Hst).
    pose proof (op_step sha p w (OExtract (arg_id part)) G Hst) as A. cbn [pkg_op_ok pkg_op_cost] in A.
    pose proof (pkg_files_bound _ _ _ (st_inv _ _ _ Hst)) as Bf.
    specialize (A E ltac:(lia)). cbn [run_pkg_op op_metas spec_pkg_op] in A.
    destruct (pkg_extract_file p (arg_id part)) as [out r].
    exists p, w. split; [reflexivity|]. split; [exact Hst|]. split; [reflexivity|].
    destruct (find (fun f => f_id f =? arg_id part) (w_files w)); tauto.
Qed.
Lemma find_find_index {A} (f : A -> bool) l :
  find f l = match find_index f l with Some i => nth_error l i | None => None end.
Proof.
  induction l as [|x l IH]; [reflexivity|]. cbn [find find_index]. destruct (f x); [reflexivity|]. rewrite IH.
  destruct (find_index f l); reflexivity.
Qed.
Lemma find_index_split {A} (f : A -> bool) l i : find_index f l = Some i ->
  exists a x b, l = a ++ x :: b /\ length a = i /\ f x = true.
Proof.
  revert i. induction l as [|x l IH]; intros i; [discriminate|]. cbn [find_index]. destruct (f x) eqn:E.
  - intros H. injection H as <-. exists [], x, l. auto.
  - destruct (find_index f l) as [j|]; [|discriminate]. cbn [option_map]. intros H. injection H as <-.
    destruct (IH j eq_refl) as (a & y & b & -> & <- & Hy). exists (x :: a), y, b. auto.
Qed.
Lemma has_key_entry id ref e : has_key id ref e = true -> e = mkEntry id ref (e_val e).
Proof. unfold has_key. intros H. apply andb_prop in H as [A B]. apply Z.eqb_eq in A, B. destruct e; cbn in *. congruence. Qed.
Lemma find_at a id ref v b : ~ In (id, ref) (map e_key a) -> find (has_key id ref) (a ++ mkEntry id ref v :: b) = Some (mkEntry id ref v).
Proof.
  induction a as [|e a IH]; intros N; cbn [app find].
  - unfold has_key. cbn. now rewrite !Z.eqb_refl.
  - destruct (has_key id ref e) eqn:E.
    + elim N. left. apply has_key_entry in E. rewrite E. reflexivity.
    + apply IH. intros C. apply N. now right.
Qed.
Lemma meta_read_whole h live i id ref v : metas_are (h_meta h) (h_metadata h) live ->
  nth_error live i = Some (mkEntry id ref v) -> meta_read h i 0 (zlen v) = Ok v.
Proof.
  intros (_ & _ & _ & _ & _ & H & _) Hi. destruct (H i _ Hi) as (B & S & m & Hm & _ & _ & _ & Eo).
  cbn [e_val] in *. unfold meta_read, METADATA_BYTES. rewrite Hm, Eo, Z.add_0_r.
  destruct (Z.gtb_spec (meta_end (firstn i live) + zlen v) 1920); [lia|]. now rewrite S.
Qed.
Lemma step_extract_meta meta ref : fits w (CExtractMeta meta ref) = true -> step_ok sha p w (CExtractMeta meta ref).
Proof.
  intros F. unfold step_ok. cbn [run_cmd]. unfold cli_extract_meta, with_package. rewrite id_arg_spec. cbn [spec_cmd].
  destruct (Z.eqb_spec (arg_id meta) 0) as [E|E].
  - exists p, w. auto 10.
  - rewrite (st_open _ _ _ Hst).
    replace (match ref with Some r => id_arg r | None => 0 end) with (ref_id arg_id ref) by (destruct ref; cbn [ref_id]; rewrite ?id_arg_spec; reflexivity).
    pose proof (st_hm _ _ _ Hst) as M. rewrite (hm_get _ _ _ _ E M). rewrite find_find_index.
    destruct (find_index (has_key (arg_id meta) (ref_id arg_id ref)) (w_metas w)) as [i|] eqn:Ei.
    + destruct (find_index_split _ _ _ Ei) as (a & x & b & El & Ea & Ex). apply has_key_entry in Ex.
      rewrite El in M |- *. rewrite Ex in M. destruct (slot_at _ _ _ _ _ _ M) as (m & Hm & _ & _ & Es & _).
      rewrite <- Ea. rewrite Hm, Es. rewrite nth_error_app2, Nat.sub_diag by lia. cbn [nth_error].
      pose proof (meta_read_whole (pk_header p) _ (length a) (arg_id meta) (ref_id arg_id ref) (e_val x) (hm_are _ _ M)) as Rd.
      rewrite Rd.
      * exists p, w. auto 10.
      * rewrite nth_error_app2, Nat.sub_diag by lia. reflexivity.
    + exists p, w. auto 10.
Qed.

(* ---- metadata ---- *)
Lemma step_add_meta name ref src enc : fits w (CAddMeta name ref src enc) = true -> step_ok sha p w (CAddMeta name ref src enc).
Proof.
  intros F. cbn [fits] in F. apply andb_prop in F as [F F4]. apply andb_prop in F as [F F3]. apply andb_prop in F as [F1 F2].
  change (src_ok src enc = true) in F4. destruct (is_name_ok _ F1) as [Bn Hid]. apply Nat.leb_le in F3.
  unfold step_ok. cbn [run_cmd]. unfold cli_add_meta, with_package. rewrite (st_open _ _ _ Hst). cbn [spec_cmd].
  destruct (input_ok _ _ F4) as [E1 E2]. rewrite E1.
  replace (match ref with Some r => bpak_id r | None => 0 end) with (ref_id bpak_id ref) by (destruct ref; reflexivity).
  destruct (meta_value src enc) as [v|e| |]; try contradiction; [|exists p, w; auto 10].
  pose proof (bpak_id_bound name Bn) as Bi.
  assert (Br : 0 <= ref_id bpak_id ref < 2^32).
  { destruct ref as [r|]; cbn [ref_id]; [|lia]. apply bpak_id_bound. now apply text_bytes_ok. }
  pose proof (add_meta_bytes_cases (pk_header p) (w_metas w) (bpak_id name) (ref_id bpak_id ref) v ltac:(lia) Br E2 (st_hm _ _ _ Hst) F3) as C.
  unfold spec_add_meta. destruct (existsb (has_key (bpak_id name) (ref_id bpak_id ref)) (w_metas w)).
  - destruct (add_meta_bytes (pk_header p) (bpak_id name) (ref_id bpak_id ref) v) as [h' r']. cbn [snd] in C. rewrite C. exists p, w. auto 10.
  - destruct (1920 <? meta_end (w_metas w) + zlen v).
    + destruct (add_meta_bytes (pk_header p) (bpak_id name) (ref_id bpak_id ref) v) as [h' r']. cbn [snd] in C. rewrite C. exists p, w. auto 10.
    + destruct C as (h' & E & M' & S'). rewrite E. unfold pkg_write_header. cbn [pk_header pk_file].
      eexists _, _. split; [|split; [eapply st_metas; eauto|auto]]. reflexivity.
Qed.
Lemma step_transport part enc dec : fits w (CTransportAdd part enc dec) = true -> step_ok sha p w (CTransportAdd part enc dec).
Proof.
  intros F. cbn [fits] in F. apply andb_prop in F as [F F4]. apply andb_prop in F as [F F3]. apply andb_prop in F as [F1 F2]. apply Nat.leb_le in F4.
  unfold step_ok. cbn [run_cmd]. unfold cli_transport_add, with_package. rewrite (st_open _ _ _ Hst), id_arg_spec. cbn [spec_cmd].
  pose proof (arg_id_bound part (text_bytes_ok _ F1)) as Bp.
  pose proof (st_hm _ _ _ Hst) as M. pose proof M as [W Ma R N].
  set (live := w_metas w) in *. set (h := pk_header p) in *.
  assert (Fail : forall stale e, zlen stale = 24 ->
     spec_add_meta w ID_BPAK_TRANSPORT (arg_id part) (le 4 (bpak_id enc) ++ le 4 (bpak_id dec) ++ stale) = (w, Err e) ->
     exists p' w', pk_file p' = pk_file p /\ st sha p' w' /\ (@None bytes = None /\ exists stale, zlen stale = 24 /\
       (w', Err e) = spec_add_meta w ID_BPAK_TRANSPORT (arg_id part) (le 4 (bpak_id enc) ++ le 4 (bpak_id dec) ++ stale))).
  { intros stale e L E. exists p, w. split; [reflexivity|]. split; [exact Hst|]. split; [reflexivity|]. exists stale. auto. }
  assert (Lv : forall stale, zlen stale = 24 -> zlen (le 4 (bpak_id enc) ++ le 4 (bpak_id dec) ++ stale) = 32).
  { intros stale L. rewrite !zlen_app, !zlen_le, L. reflexivity. }
  unfold add_transport_meta. pose proof (add_meta_spec h live ID_BPAK_TRANSPORT (arg_id part) 32 ltac:(unfold ID_BPAK_TRANSPORT; lia) Ma) as A.
  destruct (find_index (fun e => (e_id e =? ID_BPAK_TRANSPORT) && (e_ref e =? arg_id part)) live) as [i|] eqn:Ef.
  - rewrite A. apply (Fail (zeros 24)); [reflexivity|]. unfold spec_add_meta.
    destruct (existsb (has_key ID_BPAK_TRANSPORT (arg_id part)) (w_metas w)) eqn:Ex; [reflexivity|].
    apply existsb_key_false in Ex. apply find_key_None in Ex. fold live in Ex. congruence.
  - assert (Nin : ~ In (ID_BPAK_TRANSPORT, arg_id part) (map e_key live)) by now apply find_key_None.
    destruct (Nat.eqb_spec (length live) 32); [lia|]. destruct A as (m' & Hm' & Em' & A). rewrite A. unfold METADATA_BYTES.
    destruct (Z.gtb_spec (meta_end live + 32) 1920).
    + apply (Fail (zeros 24)); [reflexivity|]. unfold spec_add_meta. rewrite Lv by reflexivity. fold live.
      rewrite (proj2 (existsb_key_false _ _ _) Nin). destruct (Z.ltb_spec 1920 (meta_end live + 32)); [reflexivity|exfalso; lia].
    + pose proof (metas_are_add _ _ _ ID_BPAK_TRANSPORT (arg_id part) 32 m' ltac:(unfold ID_BPAK_TRANSPORT; lia) Ma Ef ltac:(lia) Hm' ltac:(lia) ltac:(lia)) as M2.
      pose proof (add_meta_no_ghost h live ID_BPAK_TRANSPORT (arg_id part) 32 ltac:(unfold ID_BPAK_TRANSPORT; lia) Ma N) as N2. rewrite A in N2.
      destruct (Z.gtb_spec (meta_end live + 32) 1920) as [?|_]; [exfalso; lia|]. cbn [fst] in N2.
      set (h2 := with_meta h _) in *. pose proof (meta_end_nonneg live) as Hme.
      pose proof Ma as (X1 & X2 & _).
      assert (Ls : zlen (slice (meta_end live) 32 (h_metadata h)) = 32) by (apply zlen_slice_in; lia).
      assert (W2 : wf_header h2).
      { replace h2 with (with_metadata (with_meta h (h_meta h2)) (h_metadata h)) by (unfold h2; destruct h; reflexivity).
        pose proof M2 as (Y1 & _). apply wf_with_metas; auto; try apply (wf_metadata h W).
        unfold h2. cbn [h_meta with_meta]. destruct (wf_metas h W) as [_ Wm]. apply Forall_list_upd; [exact Wm|].
        rewrite Forall_forall in Wm. destruct (Wm m' (nth_error_In _ _ Hm')) as (_ & _ & _ & _ & W5 & W6).
        unfold wf_meta, fill. cbn [m_id m_size m_offset m_ref m_pad]. unfold ID_BPAK_TRANSPORT. repeat split; auto; lia. }
      assert (Hm2 : hm h2 (live ++ mkEntry ID_BPAK_TRANSPORT (arg_id part) (slice (meta_end live) 32 (h_metadata h)) :: [])).
      { constructor; auto. rewrite app_length. cbn [length]. lia. }
      set (d := le 4 (bpak_id enc) ++ le 4 (bpak_id dec)).
      assert (Ld : zlen d = 8) by (unfold d; rewrite zlen_app, !zlen_le; reflexivity).
      assert (Bd : bytes_ok d) by (unfold d; apply bytes_ok_app; split; apply bytes_ok_le).
      destruct (meta_write_ok h2 live ID_BPAK_TRANSPORT (arg_id part) _ [] 0 d Hm2 ltac:(lia) ltac:(lia) Bd) as (h3 & E3 & Hm3 & S3).
      rewrite E3. unfold pkg_write_header. cbn [pk_header pk_file].
      set (stale := zdrop 8 (slice (meta_end live) 32 (h_metadata h))).
      assert (Lst : zlen stale = 24) by (unfold stale; rewrite zlen_zdrop; lia).
      assert (Es : splice 0 d (slice (meta_end live) 32 (h_metadata h)) = le 4 (bpak_id enc) ++ le 4 (bpak_id dec) ++ stale).
      { unfold splice. rewrite ztake_0, Z.add_0_l, Ld. cbn [app]. unfold d. now rewrite <- app_assoc. }
      rewrite Es in Hm3.
      eexists _, _. split; [|split; [eapply (st_metas sha p w h3); [exact Hst|exact Hm3|]|]].
      * reflexivity.
      * eapply same_but_meta_trans; [|exact S3]. unfold h2. fold h. destruct h; reflexivity.
      * split; [reflexivity|]. exists stale. split; [exact Lst|]. unfold spec_add_meta. rewrite Lv by exact Lst. fold live.
        rewrite (proj2 (existsb_key_false _ _ _) Nin). destruct (Z.ltb_spec 1920 (meta_end live + 32)); [exfalso; lia|]. reflexivity.
Qed.
Lemma with_value_at a id ref v b x : NoDup (map e_key (a ++ mkEntry id ref v :: b)) ->
  with_value id ref x (a ++ mkEntry id ref v :: b) = a ++ mkEntry id ref x :: b.
Proof.
  intros ND. rewrite map_app in ND. cbn [map e_key e_id e_ref] in ND. apply NoDup_remove_2 in ND.
  assert (X : forall l, ~ In (id, ref) (map e_key l) -> with_value id ref x l = l).
  { induction l as [|e l IH]; intros N; [reflexivity|]. unfold with_value in *. cbn [map]. cbn [map] in N.
    destruct (has_key id ref e) eqn:E; [apply has_key_entry in E; elim N; left; rewrite E; reflexivity|].
    f_equal. apply IH. intros C. apply N. now right. }
  unfold with_value. rewrite map_app. cbn [map]. unfold has_key at 2. cbn [e_id e_ref]. rewrite !Z.eqb_refl. cbn [andb].
  fold (with_value id ref x a). fold (with_value id ref x b).
  rewrite !X; auto; intros C; apply ND; apply in_or_app; auto.
Qed.
Lemma step_set_meta name s enc : fits w (CSetMeta name s enc) = true -> step_ok sha p w (CSetMeta name s enc).
Proof.
  intros F. cbn [fits] in F. apply andb_prop in F as [F F3]. apply andb_prop in F as [F1 F2].
  destruct (is_name_ok _ F1) as [Bn Hid]. pose proof (text_bytes_ok _ F2) as Bs. pose proof (bpak_id_bound name Bn) as Bi.
  unfold step_ok. cbn [run_cmd]. unfold cli_set_meta. rewrite (st_read _ _ _ _ Hst). cbn [spec_cmd]. unfold spec_set_meta.
  pose proof (st_hm _ _ _ Hst) as M. rewrite (hm_get _ _ _ _ Hid M). rewrite find_find_index.
  set (id := bpak_id name) in *. set (h := pk_header p) in *.
  destruct (find_index (has_key id 0) (w_metas w)) as [i|] eqn:Ei; [|exists p, w; auto 10].
  destruct (find_index_split _ _ _ Ei) as (a & x & b & El & Ea & Ex). apply has_key_entry in Ex. rewrite Ex in El. set (v := e_val x) in *.
  rewrite El in M |- *. rewrite nth_error_app2, <- Ea, Nat.sub_diag by lia. cbn [nth_error e_val].
  pose proof (hm_nodup _ _ M) as ND.
  assert (Done : forall h' ms, hm h' ms -> same_but_meta h h' ->
    exists p' w', pk_file p' = fwrite_at (pk_file p) 0 (enc_header h') /\ st sha p' w' /\ @None bytes = None /\ (w', Ok tt) = (set_metas w ms, @Ok unit tt)).
  { intros h' ms Hm Sm. eexists _, _. split; [|split; [exact (st_metas sha p w h' ms Hst Hm Sm)|auto]]. reflexivity. }
  destruct enc as [e|]; cbn [is].
  - destruct (bytes_eqb e (bytes_of "integer")).
    + destruct (strtol0 s) as [z|].
      * destruct (set_fixed_ok h a id 0 v b 8 (le 8 (u64 z)) M (bytes_ok_le _ _) (zlen_le _ _)) as [C1 C2].
        destruct (Z.eqb_spec (zlen v) 8) as [E|E]; cbn [negb].
        -- destruct (C2 E) as (_ & h' & E' & Hm & Sm). rewrite E'. rewrite with_value_at by exact ND. exact (Done _ _ Hm Sm).
        -- rewrite (C1 E). exists p, w. auto 10.
      * destruct (set_fixed_ok h a id 0 v b 8 (le 8 0) M (bytes_ok_le _ _) (zlen_le _ _)) as [C1 C2].
        destruct (Z.eqb_spec (zlen v) 8) as [E|E]; cbn [negb].
        -- destruct (C2 E) as (C3 & _). rewrite C3. exists p, w. auto 10.
        -- rewrite (C1 E). exists p, w. auto 10.
    + destruct (bytes_eqb e (bytes_of "id")); [|exists p, w; auto 10].
      destruct (set_fixed_ok h a id 0 v b 4 (le 4 (bpak_id s)) M (bytes_ok_le _ _) (zlen_le _ _)) as [C1 C2].
      destruct (Z.eqb_spec (zlen v) 4) as [E|E]; cbn [negb].
      * destruct (C2 E) as (_ & h' & E' & Hm & Sm). rewrite E'. rewrite with_value_at by exact ND. exact (Done _ _ Hm Sm).
      * rewrite (C1 E). exists p, w. auto 10.
  - pose proof (set_string_ok h a id 0 v b s ltac:(lia) ltac:(lia) M Bs ltac:(lia)) as C.
    assert (L1 : zlen (s ++ [0]) = zlen s + 1) by (rewrite zlen_app; reflexivity). rewrite L1 in *.
    destruct (zlen s + 1 <=? zlen v).
    + destruct C as (h' & E' & Hm & Sm). rewrite E'. rewrite with_value_at by exact ND. exact (Done _ _ Hm Sm).
    + cbn zeta in C. set (ms := purge (has_key id 0) 1920 (a ++ mkEntry id 0 v :: b)) in *.
      destruct (1920 <? meta_end ms + (zlen s + 1)).
      * destruct (set_string h (length a) s) as [h' r']. cbn [snd] in C. rewrite C. exists p, w. auto 10.
      * destruct C as (h' & E' & Hm & Sm). rewrite E'. exact (Done _ _ Hm Sm).
Qed.

(* ---- settings ---- *)
Lemma st_settings h' w' : wf_header h' -> h_meta h' = h_meta (pk_header p) -> h_metadata h' = h_metadata (pk_header p) ->
  h_magic h' = h_magic (pk_header p) -> h_parts h' = h_parts (pk_header p) -> h_hash_kind h' = h_hash_kind (pk_header p) ->
  h_payload_hash h' = h_payload_hash (pk_header p) -> w_files w' = w_files w -> w_metas w' = w_metas w -> settings h' w' ->
  st sha (mkPkg h' (fwrite_at (pk_file p) 0 (enc_header h'))) w'.
Proof.
  intros W E1 E2 E3 E4 E5 E6 E7 E8 S. destruct Hst as [I [W0 M L N] S0].
  assert (Hm : hm h' (w_metas w)) by (constructor; auto; [rewrite E1, E2|rewrite E1]; auto).
  constructor; cbn [pk_header]; auto.
  - rewrite E7. eapply header_rewrite; eauto.
  - rewrite E8. exact Hm.
Qed.
Lemma step_set_ids key ks : fits w (CSetIds key ks) = true -> step_ok sha p w (CSetIds key ks).
Proof.
  intros F. cbn [fits] in F. apply andb_prop in F as [F1 F2]. unfold step_ok. cbn [run_cmd]. unfold cli_set_ids.
  rewrite (st_read _ _ _ _ Hst). cbn [spec_cmd]. pose proof (st_set _ _ _ Hst) as S. pose proof (inv_wf _ _ _ (st_inv _ _ _ Hst)) as W.
  assert (B : forall k, text k = true -> 0 <= id_arg k < 2^32).
  { intros k Hk. rewrite id_arg_spec. apply arg_id_bound. now apply text_bytes_ok. }
  assert (Wk : forall h k, wf_header h -> 0 <= k < 2^32 -> wf_header (with_key_id h k)).
  { intros h k [] Hk. constructor; auto. }
  assert (Wks : forall h k, wf_header h -> 0 <= k < 2^32 -> wf_header (with_keystore_id h k)).
  { intros h k [] Hk. constructor; auto. }
  unfold settings in S. destruct S as (S1 & S2 & S3 & S4 & S5 & S6).
  assert (Go : forall h' k k2, h' = with_keystore_id (with_key_id (pk_header p) k) k2 -> 0 <= k < 2^32 -> 0 <= k2 < 2^32 ->
    st sha (mkPkg h' (fwrite_at (pk_file p) 0 (enc_header h'))) (mkWorld (w_hash w) (w_sign w) k k2 (w_sig w) (w_files w) (w_metas w))).
  { intros h' k k2 -> B1 B2. apply st_settings; try reflexivity; [auto|].
    unfold settings. cbn [w_hash w_sign w_key w_keystore w_sig h_hash_kind h_signature_kind h_key_id h_keystore_id h_signature_sz h_signature with_key_id with_keystore_id]. auto 10. }
  pose proof (wf_key_id _ W) as Bk. pose proof (wf_keystore_id _ W) as Bks.
  destruct key as [k|], ks as [k2|]; cbn [opt_text] in *; [| | |exists p, w; auto 10].
  - eexists _, _. split; [|split; [apply (Go (with_keystore_id (with_key_id (pk_header p) (id_arg k)) (id_arg k2)) (id_arg k) (id_arg k2)); auto|]]; [reflexivity|].
    rewrite !id_arg_spec. auto.
  - eexists _, _. split; [|split; [apply (Go (with_key_id (pk_header p) (id_arg k)) (id_arg k) (h_keystore_id (pk_header p))); auto; destruct (pk_header p); reflexivity|]]; [reflexivity|].
    rewrite !id_arg_spec, S4. auto.
  - eexists _, _. split; [|split; [apply (Go (with_keystore_id (pk_header p) (id_arg k2)) (h_key_id (pk_header p)) (id_arg k2)); auto; destruct (pk_header p); reflexivity|]]; [reflexivity|].
    rewrite !id_arg_spec, S3. auto.
Qed.
Lemma step_sign_raw s : fits w (CSignRaw s) = true -> step_ok sha p w (CSignRaw s).
Proof.
  intros F. unfold step_ok. cbn [run_cmd]. unfold cli_sign_raw, with_package. rewrite (st_open _ _ _ Hst). cbn [spec_cmd].
  destruct s as [s|]; [|exists p, w; auto 10]. cbn [fits] in F. apply andb_prop in F as [F1 F2]. apply all_bytes_ok in F1.
  pose proof (zlen_nonneg s) as Hs.
  rewrite (ztake_all 1024 s) by lia. unfold pkg_write_raw_signature. destruct (Z.gtb_spec (zlen s) 512); [exfalso; lia|].
  unfold pkg_write_header. cbn [pk_header pk_file].
  pose proof (st_set _ _ _ Hst) as (S1 & S2 & S3 & S4 & S5 & S6). pose proof (inv_wf _ _ _ (st_inv _ _ _ Hst)) as W.
  assert (U : u16 (zlen s) = zlen s) by (unfold u16; rewrite Z.mod_small; lia). rewrite U.
  assert (Lz : zlen (zeros 512) = 512) by (rewrite zlen_zeros; reflexivity).
  set (h' := with_signature (pk_header p) (splice 0 s (zeros 512)) (zlen s)).
  exists (mkPkg h' (fwrite_at (pk_file p) 0 (enc_header h'))), (mkWorld (w_hash w) (w_sign w) (w_key w) (w_keystore w) s (w_files w) (w_metas w)).
  split; [reflexivity|]. split; [apply st_settings; try reflexivity|].
  - destruct W. unfold h'. constructor; cbn [h_magic h_pad0 h_meta h_parts h_metadata h_hash_kind h_signature_kind h_alignment h_payload_hash h_key_id h_keystore_id h_pad1 h_signature h_signature_sz with_signature]; auto.
    + split; [rewrite zlen_splice; lia|]. apply bytes_ok_splice; auto. apply bytes_ok_zeros.
    + lia.
  - unfold settings, h'. cbn [w_hash w_sign w_key w_keystore w_sig h_hash_kind h_signature_kind h_key_id h_keystore_id h_signature_sz h_signature with_signature].
    split; [exact S1|]. split; [exact S2|]. split; [exact S3|]. split; [exact S4|]. split; [reflexivity|]. apply slice_splice_same; lia.
  - split; [reflexivity|]. split; [reflexivity|]. reflexivity.
Qed.

(* ---- hash trees ---- *)
Lemma not_existsb_ids a b fs : existsb (fun f => (f_id f =? a) || (f_id f =? b)) fs = false -> ~ In a (map f_id fs) /\ ~ In b (map f_id fs).
Proof.
  intros H. split; intros C; apply in_map_iff in C as (f & E & Hf); apply not_true_iff_false in H; apply H; apply existsb_exists; exists f;
    (split; [exact Hf|]); rewrite E, Z.eqb_refl; cbn [orb]; auto using orb_true_r.
Qed.
Lemma step_add_merkle name data salt dh : fits w (CAddMerkle name data salt dh) = true -> step_ok sha p w (CAddMerkle name data salt dh).
Proof.
  intros F. cbn [fits] in F. do 14 (apply andb_prop in F as [F ?]).
  repeat match goal with H : (_ && _) = true |- _ => apply andb_prop in H as [? ?] end.
  repeat match goal with H : negb _ = true |- _ => apply negb_true_iff in H end.
  repeat match goal with H : Nat.leb _ _ = true |- _ => apply Nat.leb_le in H end.
  destruct (is_name_ok name ltac:(assumption)) as [Bn Hid]. destruct (flags_ok dh) as [Hf1 Hf2].
  assert (Hbs : bytes_ok salt) by (apply all_bytes_ok; assumption).
  pose proof Hst as [I M S]. pose proof I as [(es & Hh & O & Fm) P V Hs Ms D]. pose proof (st_size _ _ _ Hst) as Sz.
  assert (Tn : part_name_to_hash_tree_id name = bpak_id (name ++ bytes_of "-hash-tree")) by apply hash_tree_id_name.
  destruct (not_existsb_ids (bpak_id name) (bpak_id (name ++ bytes_of "-hash-tree")) (w_files w) ltac:(assumption)) as [N1 N2].
  assert (Le : length (w_files w) = length es) by (clear - Fm; induction Fm; cbn [length]; congruence).
  assert (Kn : forall k, k = ID_MERKLE_SALT \/ k = ID_MERKLE_ROOT_HASH -> ~ In (k, bpak_id name) (map e_key (w_metas w))).
  { intros k Hk. apply existsb_key_false. apply not_true_iff_false. intros C. apply existsb_exists in C as (e & He & Ke).
    match goal with H : existsb (fun e => has_key _ _ e || has_key _ _ e) _ = false |- _ => apply not_true_iff_false in H; apply H end.
    apply existsb_exists. exists e. split; [exact He|]. destruct Hk as [-> | ->]; rewrite Ke; auto using orb_true_r. }
  destruct (add_merkle_ok sha p es (w_metas w) data name salt (flags_of dh)) as (p' & ls & Hls & At & E & H' & D' & M' & S'); auto; try lia;
    try (eapply plain_of; eauto; fail); try (rewrite (ids_of _ _ Fm); exact N1); try (rewrite Tn, (ids_of _ _ Fm); exact N2).
  - unfold step_ok. cbn [run_cmd]. unfold cli_add_merkle, with_package. rewrite (st_open _ _ _ Hst), part_flags_eq, E. cbn [spec_cmd].
    assert (Pd : padding (zlen data) = 0).
    { unfold padding. apply Z.mod_opp_l_z; [lia|]. assert (zlen data mod 4096 = 0) as Hm4 by lia. change 4096 with (512 * 8) in Hm4. lia. }
    assert (Pt : padding (zlen (hash_tree ls)) = 0).
    { unfold padding. apply Z.mod_opp_l_z; [lia|]. change 4096 with (512 * 8) in At. lia. }
    destruct (sbpm_fields _ _ S') as (E0 & E1 & _).
    eexists p', _. split; [reflexivity|]. split; [|exists ls; split; [exact Hls|split; [reflexivity|split; [reflexivity|reflexivity]]]].
    constructor; cbn [w_files w_metas set_files set_metas]; [|exact M'|exact (settings_same _ _ _ S' S)].
    eapply (inv_build sha p p'); [exact V|exact Hs|exact E0|exact E1| |exact H'| | | |exact D'].
    + destruct M' as [A1 A2 A3 A4]. eexists. split; [exact A2|]. split; [exact A3|exact A4].
    + pose proof (holds_len _ _ Hh) as Lh. apply offsets_app. split; [exact O|]. cbn [offsets_from fst snd new_part tree_part p_offset]. rewrite Lh. auto.
    + apply Forall2_app; [exact Fm|]. constructor; [|constructor; [|constructor]]; unfold file_matches, file_stored, new_part, tree_part;
        cbn [fst snd f_data f_id f_flags p_id p_flags p_size p_pad_bytes]; rewrite ?Pd, ?Pt; change (zeros 0) with (@nil Z); rewrite app_nil_r; auto.
    + apply Forall_app. split; [exact P|]. constructor; [exact Hf2|constructor; [exact Hf2|constructor]].
Qed.
End Steps.

(* ---- create ---- *)
Lemma hash_arg_named s : hash_arg s = hash_named s.
Proof. destruct s; reflexivity. Qed.
Lemma sign_arg_named s : sign_arg s = sign_named s.
Proof.
  destruct s as [n|]; [|reflexivity]. unfold sign_arg, sign_named, is.
  destruct (bytes_eqb n (bytes_of "prime256v1")) eqn:E1.
  - apply bytes_eqb_eq in E1. subst n. reflexivity.
  - destruct (bytes_eqb n (bytes_of "secp384r1")) eqn:E2; [apply bytes_eqb_eq in E2; subst n; reflexivity|].
    destruct (bytes_eqb n (bytes_of "secp521r1")) eqn:E3; [apply bytes_eqb_eq in E3; subst n; reflexivity|].
    destruct (bytes_eqb n (bytes_of "rsa4096")); reflexivity.
Qed.
Lemma create_ok sha hash sign f : good_hash sha ->
  let '(f', out, r) := cli_create sha hash sign f in
  out = None /\
  match hash_named hash, sign_named sign with
  | Some hk, Some sk => r = Ok tt /\ exists p, pk_file p = f' /\ st sha p (mkWorld hk sk 0 0 [] [] [])
  | None, _ => f' = f /\ r = Err E_UNSUPPORTED_HASH_ALG
  | Some _, None => f' = f /\ r = Err E_UNSUPPORTED_KEY
  end.
Proof.
  intros G. unfold cli_create. rewrite hash_arg_named, sign_arg_named.
  destruct (hash_named hash) as [hk|] eqn:Eh; [|auto]. destruct (sign_named sign) as [sk|] eqn:Es; [|auto].
  assert (Hk : hash_supported hk = true /\ 0 <= hk < 2^8).
  { unfold hash_named in Eh. destruct hash; [|injection Eh as <-; split; [reflexivity|lia]].
    destruct (is _ "sha256"); [injection Eh as <-; split; [reflexivity|lia]|]. destruct (is _ "sha384"); [injection Eh as <-; split; [reflexivity|lia]|].
    destruct (is _ "sha512"); [injection Eh as <-; split; [reflexivity|lia]|discriminate]. }
  assert (Sk : 0 <= sk < 2^8).
  { unfold sign_named in Es. destruct sign; [|injection Es as <-; lia].
    destruct (is _ "rsa4096"); [injection Es as <-; lia|]. destruct (is _ "prime256v1"); [injection Es as <-; lia|].
    destruct (is _ "secp384r1"); [injection Es as <-; lia|]. destruct (is _ "secp521r1"); [injection Es as <-; lia|discriminate]. }
  destruct (open_short sha [] G) as [_ Eo]; [cbn; lia|]. rewrite Eo. cbn [app].
  set (h0 := with_signature_kind (with_hash_kind init_header hk) sk). set (f0 := enc_header (fresh_header sha)).
  assert (W0 : wf_header h0).
  { pose proof wf_init_header as []. destruct Hk as [_ Hk]. unfold h0. constructor; auto. }
  assert (U : used (h_parts h0) = []) by reflexivity.
  assert (Sz : sizes_ok (h_parts h0)).
  { apply Forall_forall. intros q Hq. cbn [h_parts h0 with_signature_kind with_hash_kind init_header] in Hq. apply repeat_spec in Hq as ->.
    split; [exact wf_zero_part|reflexivity]. }
  destruct (hash_and_write_spec sha h0 f0 W0 Sz (proj1 Hk)) as (W1 & Ew & Ed); auto.
  { unfold payload_present, hashed_parts. rewrite U. constructor. }
  assert (Ehp : hashed_payload f0 4096 (h_parts h0) = []).
  { unfold hashed_payload, hashed_parts. rewrite U. reflexivity. }
  rewrite Ehp in *. rewrite Ew. set (h1 := with_digest h0 (sha (h_hash_kind h0) [])) in *. cbn [pk_file].
  split; [reflexivity|]. split; [reflexivity|].
  assert (Z0 : zdrop 4096 f0 = []).
  { apply zdrop_all. unfold f0. rewrite zlen_enc_header by now apply fresh_wf. lia. }
  rewrite Z0, app_nil_r. exists (mkPkg h1 (enc_header h1)). split; [reflexivity|].
  assert (No : no_ghost_refs (h_meta h1)).
  { apply Forall_forall. intros m Hm. cbn [h_meta h1 h0 with_digest VerifyModel.with_payload_hash with_signature_kind with_hash_kind init_header] in Hm.
    apply repeat_spec in Hm as ->. reflexivity. }
  assert (V : valid_header h1 = Ok tt).
  { pose proof (proj1 (valid_header_iff (fresh_header sha)) eq_refl) as (V1 & V2 & V3 & _). apply valid_header_iff.
    split; [exact V1|]. split; [exact V2|]. split; [exact V3|].
    change (h_hash_kind h1) with hk. destruct Hk as [Hk _]. intros Zk. rewrite Zk in Hk. discriminate Hk. }
  constructor; cbn [pk_header w_files w_metas].
  - constructor; cbn [pk_header pk_file]; auto.
    + exists []. split; [|split; [exact I|constructor]]. constructor; cbn [pk_header pk_file map concat length]; auto.
      * lia.
      * constructor.
      * now rewrite app_nil_r.
      * rewrite zlen_enc_header by auto. lia.
    + exact (proj1 Hk).
    + exists []. split; [exact metas_are_init|]. split; [cbn [length]; lia|exact No].
  - constructor; auto. + exact metas_are_init. + cbn [length]. lia.
  - unfold settings. repeat split.
Qed.

(* ---- the main theorem ---- *)
Theorem cmd_step sha p w c : good_hash sha -> st sha p w -> fits w c = true -> step_ok sha p w c.
Proof.
  intros G S F. destruct c as [h s|name data dh|name data salt dh|name ref src enc|part enc dec|name s enc|key ks|part keep|keep|part|meta ref|sig].
  - unfold step_ok. cbn [run_cmd spec_cmd]. pose proof (create_ok sha h s (pk_file p) G) as C.
    destruct (cli_create sha h s (pk_file p)) as [[f' out] r]. destruct C as [-> C].
    destruct (hash_named h) as [hk|]; [destruct (sign_named s) as [sk|]|].
    + destruct C as (-> & p' & E & S'). exists p', (mkWorld hk sk 0 0 [] [] []). auto 10.
    + destruct C as [-> ->]. exists p, w. auto 10.
    + destruct C as [-> ->]. exists p, w. auto 10.
  - now apply step_add_part.
  - now apply step_add_merkle.
  - now apply step_add_meta.
  - now apply step_transport.
  - now apply step_set_meta.
  - now apply step_set_ids.
  - now apply step_delete.
  - now apply step_delete_all.
  - now apply step_extract_part.
  - now apply step_extract_meta.
  - now apply step_sign_raw.
Qed.
(* any sequence of commands: as long as they stay within the limits, files and
   results are the specified ones *)
Theorem cmds_ok sha : good_hash sha -> forall cs f w, stored sha f w ->
  exists done rest xs w', cs = done ++ rest /\ spec_cmds sha w done xs w' /\
    snd (run_cmds sha done f) = xs /\ stored sha (fst (run_cmds sha done f)) w' /\
    match rest with [] => True | c :: _ => fits w' c = false end.
Proof.
  intros G. induction cs as [|c cs IH]; intros f w S.
  - exists [], [], [], w. split; [reflexivity|]. split; [constructor|]. cbn. auto.
  - destruct (fits w c) eqn:F.
    + apply stored_st in S as (p & Ep & Sp). pose proof (cmd_step sha p w c G Sp F) as St. unfold step_ok in St. rewrite Ep in St.
      destruct (run_cmd sha c f) as [[f1 out] r] eqn:E1. destruct St as (p1 & w1 & E2 & S1 & Sc).
      destruct (IH f1 w1) as (done & rest & xs & w' & -> & Sd & R1 & R2 & R3).
      { apply stored_st. exists p1. auto. }
      exists (c :: done), rest, ((out, r) :: xs), w'. split; [reflexivity|]. split; [econstructor; eauto|].
      cbn [run_cmds]. rewrite E1. destruct (run_cmds sha done f1) as [f2 ys]. cbn [fst snd] in *. subst ys. auto.
    + exists [], (c :: cs), [], w. split; [reflexivity|]. split; [constructor|]. cbn. auto.
Qed.
Lemma stored_now sha f w : good_hash sha -> stored sha f w ->
  exists p, pkg_open sha true f = (f, Ok p) /\ pkg_inv sha p (w_files w).
Proof. intros G S. apply stored_st in S as (p & <- & S). exists p. split; [now apply (st_open _ _ w)|apply (st_inv _ _ _ S)]. Qed.
