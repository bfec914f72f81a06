(* ImageMain.v -- every session of tidy commands leaves the image of its contents *)
From Coq Require Import String.
From Verif Require Import BaseLemmas HeaderModel HeaderSpec HeaderHistory CodecProofs PartProofs MetaProofs CrcModel CrcProofs HashModel
  MerkleModel MerkleSpec MerkleApi VerifyModel VerifySpec VerifyProofs VerifySign VerifyWitness PkgModel PkgSpec PkgProofs PkgAdd PkgDelete PkgHistory PkgApi PkgTrees PkgMerkle
  TransportFile UtilModel PkgForget PkgCanon CliModel CliSpec CliMeta CliArgs CliStep CliProofs CliSign ImageSpec ImageProofs ImageSteps.
Local Open Scope Z_scope.
Local Open Scope list_scope.

(* ---- deleting when no metadata refers to the part ---- *)
Lemma remove_none sel h : length (h_meta h) = 32%nat -> Forall (fun m => sel m = false) (h_meta h) -> remove_meta_loop sel 100 0 h = Ok h.
Proof.
  intros L F. assert (X : forall k i, (i <= 32)%nat -> (32 - i < k)%nat -> remove_meta_loop sel k i h = Ok h); [|apply X; lia].
  induction k as [|k IH]; intros i Hi Hk; [lia|]. cbn [remove_meta_loop]. unfold MAX_META. destruct (Nat.eqb_spec i 32); [reflexivity|].
  destruct (nth_error (h_meta h) i) as [m|] eqn:E; [|apply nth_error_None in E; lia].
  rewrite Forall_forall in F. rewrite (F m (nth_error_In _ _ E)). apply IH; lia.
Qed.
Lemma slots_refs h live (P : Z -> bool) : hm h live -> P 0 = false -> forallb (fun e => negb (P (e_ref e))) live = true ->
  Forall (fun m => P (m_ref m) = false) (h_meta h).
Proof.
  intros [W M R N] P0 Hl. apply metas_are_iff in M as (_ & _ & _ & _ & L & _). revert Hl L N. generalize 0 at 1 as off. generalize (h_meta h) as slots.
  clear - P0. induction live as [|e live IH]; intros slots off Hl L N; cbn [layout forallb] in *.
  - unfold no_ghost_refs in N. apply Forall_forall. intros m Hm. rewrite Forall_forall in L, N. rewrite (N m Hm (L m Hm)). exact P0.
  - destruct slots as [|m s]; [destruct L|]. destruct L as (_ & L & _ & _ & L'). apply andb_prop in Hl as [H1 H2].
    unfold no_ghost_refs in N. apply Forall_cons_iff in N as [_ N]. constructor; [|eapply IH; eauto].
    rewrite L. now destruct (P (e_ref e)).
Qed.
Lemma delete_no_refs sha p id live : hm (pk_header p) live -> id <> 0 -> existsb (fun e => e_ref e =? id) live = false ->
  pkg_delete_part sha p id true = pkg_delete_part sha p id false.
Proof.
  intros M Hid Hx. pose proof M as [W Ma R N]. pose proof Ma as (L & _). unfold pkg_delete_part.
  destruct (get_part (pk_header p) id) as [i| | |]; try reflexivity. destruct (nth_error (h_parts (pk_header p)) i) as [q|]; [|reflexivity].
  destruct (del_part (pk_header p) i) as [h1| | |] eqn:Ed; try reflexivity.
  assert (E1 : h_meta h1 = h_meta (pk_header p)).
  { unfold del_part in Ed. destruct (nth_error _ _); [|discriminate]. injection Ed as <-. reflexivity. }
  destruct (shift_offsets _ _ 0) as [tl todo]. cbv zeta.
  rewrite remove_none; [reflexivity|cbn [h_meta with_parts]; rewrite E1; exact L|]. cbn [h_meta with_parts]. rewrite E1.
  apply (slots_refs _ live (fun r => r =? id) M); [destruct (Z.eqb_spec 0 id); congruence|].
  clear - Hx. induction live as [|e live IH]; [reflexivity|]. cbn [existsb forallb] in *. apply orb_false_elim in Hx as [H1 H2]. rewrite H1. cbn. auto.
Qed.
Lemma delete_all_no_refs sha p live : hm (pk_header p) live -> existsb (fun e => negb (e_ref e =? 0)) live = false ->
  pkg_delete_all_parts sha p true = pkg_delete_all_parts sha p false.
Proof.
  intros M Hx. pose proof M as [W Ma R N]. pose proof Ma as (L & _). unfold pkg_delete_all_parts. cbv zeta.
  rewrite remove_none; [reflexivity|exact L|]. cbn [h_meta with_parts].
  apply (slots_refs _ live (fun r => negb (r =? 0)) M); [reflexivity|].
  clear - Hx. induction live as [|e live IH]; [reflexivity|]. cbn [existsb forallb] in *. apply orb_false_elim in Hx as [H1 H2]. rewrite H1. cbn. auto.
Qed.

(* ---- package operations ---- *)
Lemma op_pristine sha p w o : good_hash sha -> st sha p w -> pkg_op_ok o -> keeps_meta o = true -> zlen (pk_file p) + pkg_op_cost o <= 2^63 ->
  pristine (pk_header p) -> pristine (header_of (pk_file (fst (fst (run_pkg_op sha p o))))).
Proof.
  intros G S Ok Km Hb P. destruct (canon_step sha p (w_files w) o G (st_inv _ _ _ S) Ok Km Hb (pr_parts _ P)) as (Sb & T & C).
  pose proof (op_step sha p w o G S Ok Hb) as A. destruct (run_pkg_op sha p o) as [[p' x] y]. cbn [fst] in *.
  destruct (spec_pkg_op bpak_id (w_files w) o) as [[fs' x'] y']. destruct A as (_ & _ & S'). rewrite (st_header _ _ _ S').
  eapply pristine_besides; eauto.
Qed.
(* ---- rewritten headers ---- *)
Lemma write_pristine sha p w h' live : st sha p w -> hm h' live -> same_but_meta (pk_header p) h' -> exact_meta h' live -> pristine (pk_header p) ->
  pristine (header_of (fwrite_at (pk_file p) 0 (enc_header h'))).
Proof.
  intros S M Sm E P. pose proof (pkg_files_bound _ _ _ (st_inv _ _ _ S)). rewrite header_of_write; [|apply (hm_wf _ _ M)|lia].
  eapply pristine_metas; eauto. apply (hm_are _ _ M).
Qed.

Section Steps.
Context (sha : hashfn) (G : good_hash sha) (p : pkg) (w : world) (Hst : st sha p w) (Hp : pristine (pk_header p)).
Let keeps (c : cmd) : Prop := pristine (header_of (fst (fst (run_cmd sha c (pk_file p))))).
Lemma keeps_file : pristine (header_of (pk_file p)).
Proof. rewrite (st_header _ _ _ Hst). exact Hp. Qed.

Lemma tidy_add_part name data dh : fits w (CAddPart name data dh) = true -> keeps (CAddPart name data dh).
Proof.
  intros F. cbn [fits] in F. apply andb_prop in F as [F F3]. apply andb_prop in F as [F1 F2].
  destruct (is_name_ok _ F1) as [Bn Hid]. destruct (flags_ok dh) as [Hf1 Hf2].
  unfold keeps. cbn [run_cmd]. unfold cli_add_part, with_package. rewrite (st_open _ _ _ Hst), part_flags_eq.
  pose proof (st_size _ _ _ Hst) as Sz.
  pose proof (op_pristine sha p w (OAdd name data (flags_of dh)) G Hst) as A. cbn [pkg_op_ok pkg_op_cost] in A.
  specialize (A ltac:(auto) eq_refl ltac:(lia) Hp). cbn [run_pkg_op] in A.
  destruct (pkg_add_file sha p data name (flags_of dh)) as [p' r]. exact A.
Qed.
Lemma tidy_delete part keep : tidy w (CDelete part keep) = true -> keeps (CDelete part keep).
Proof.
  intros T. cbn [tidy] in T. unfold keeps. cbn [run_cmd]. unfold cli_delete, with_package. rewrite id_arg_spec.
  destruct (Z.eqb_spec (arg_id part) 0) as [E|E]; [exact keeps_file|]. rewrite (st_open _ _ _ Hst).
  assert (Eq : pkg_delete_part sha p (arg_id part) (negb keep) = pkg_delete_part sha p (arg_id part) false).
  { destruct keep; [reflexivity|]. cbn [orb negb] in *. apply (delete_no_refs sha p _ (w_metas w)); auto; [exact (st_hm _ _ _ Hst)|].
    now destruct (existsb _ _). }
  rewrite Eq. pose proof (pkg_files_bound _ _ _ (st_inv _ _ _ Hst)) as Bf.
  pose proof (op_pristine sha p w (ODel (arg_id part) false) G Hst E eq_refl) as A. cbn [pkg_op_cost] in A.
  specialize (A ltac:(lia) Hp). cbn [run_pkg_op] in A. destruct (pkg_delete_part sha p (arg_id part) false) as [p' r]. exact A.
Qed.
Lemma tidy_delete_all keep : tidy w (CDeleteAll keep) = true -> keeps (CDeleteAll keep).
Proof.
  intros T. cbn [tidy] in T. unfold keeps. cbn [run_cmd]. unfold cli_delete_all, with_package. rewrite (st_open _ _ _ Hst).
  assert (Eq : pkg_delete_all_parts sha p (negb keep) = pkg_delete_all_parts sha p false).
  { destruct keep; [reflexivity|]. cbn [orb negb] in *. apply (delete_all_no_refs sha p (w_metas w)); [exact (st_hm _ _ _ Hst)|].
    now destruct (existsb _ _). }
  rewrite Eq. pose proof (pkg_files_bound _ _ _ (st_inv _ _ _ Hst)) as Bf.
  pose proof (op_pristine sha p w (ODelAll false) G Hst I eq_refl) as A. cbn [pkg_op_cost] in A.
  specialize (A ltac:(lia) Hp). cbn [run_pkg_op] in A. destruct (pkg_delete_all_parts sha p false) as [p' r]. exact A.
Qed.
Lemma tidy_extract_part part : keeps (CExtractPart part).
Proof.
  unfold keeps. cbn [run_cmd]. unfold cli_extract_part, with_package. destruct (_ =? 0); [exact keeps_file|]. rewrite (st_open _ _ _ Hst).
  destruct (pkg_extract_file p (id_arg part)) as [o r]. exact keeps_file.
Qed.
Lemma tidy_extract_meta meta ref : keeps (CExtractMeta meta ref).
Proof.
  unfold keeps. cbn [run_cmd]. unfold cli_extract_meta, with_package. destruct (_ =? 0); [exact keeps_file|]. rewrite (st_open _ _ _ Hst).
  destruct (get_meta _ _ _) as [i|e| |]; try exact keeps_file. destruct (nth_error _ i); [|exact keeps_file].
  destruct (meta_read _ i 0 _); exact keeps_file.
Qed.
Lemma tidy_add_meta name ref src enc : fits w (CAddMeta name ref src enc) = true -> keeps (CAddMeta name ref src enc).
Proof.
  intros F. pose proof (step_add_meta sha p w Hst name ref src enc F) as So. 
  cbn [fits] in F. apply andb_prop in F as [F F4]. apply andb_prop in F as [F F3]. apply andb_prop in F as [F1 F2]. apply Nat.leb_le in F3.
  destruct (is_name_ok _ F1) as [Bn Hid]. pose proof (bpak_id_bound name Bn) as Bi.
  unfold keeps. cbn [run_cmd]. unfold cli_add_meta, with_package. rewrite (st_open _ _ _ Hst).
  destruct (do (buf, len) <- read_source src; encode_input enc buf len) as [v|e| |] eqn:Ev; try exact keeps_file.
  destruct (add_meta_bytes _ _ _ v) as [h1 [u|e| |]] eqn:Ea; try exact keeps_file. destruct u.
  assert (Bv : bytes_ok v).
  { pose proof (input_ok src enc F4) as Io. rewrite Ev in Io. destruct (meta_value src enc); try contradiction; destruct Io as [Io1 Io2]; congruence. }
  assert (Br : 0 <= match ref with Some r => bpak_id r | None => 0 end < 2^32).
  { destruct ref as [r|]; [|lia]. cbn [opt_text] in F2. apply bpak_id_bound. now apply text_bytes_ok. }
  pose proof (st_hm _ _ _ Hst) as M.
  destruct (exact_add_bytes _ (w_metas w) (bpak_id name) _ v h1 ltac:(lia) Br Bv M (exact_is _ _ (hm_are _ _ M) Hp) F3 Ea) as (E' & M' & S').
  unfold pkg_write_header. cbn [fst pk_header pk_file]. exact (write_pristine sha p w h1 _ Hst M' S' E' Hp).
Qed.
Lemma tidy_transport part enc dec : fits w (CTransportAdd part enc dec) = true -> keeps (CTransportAdd part enc dec).
Proof.
  intros F. cbn [fits] in F. apply andb_prop in F as [F F4]. apply andb_prop in F as [F F3]. apply andb_prop in F as [F1 F2]. apply Nat.leb_le in F4.
  pose proof (arg_id_bound part (text_bytes_ok _ F1)) as Bp. pose proof (st_hm _ _ _ Hst) as M.
  unfold keeps. cbn [run_cmd]. unfold cli_transport_add, with_package. rewrite (st_open _ _ _ Hst), id_arg_spec.
  destruct (add_transport_meta _ _ _ _) as [h1 [u|e| |]] eqn:Ea; try exact keeps_file. destruct u.
  destruct (exact_add_transport _ (w_metas w) _ _ _ h1 Bp M (exact_is _ _ (hm_are _ _ M) Hp) F4 Ea) as (live' & E' & M' & S' & W').
  unfold pkg_write_header. cbn [fst pk_header pk_file].
  pose proof (pkg_files_bound _ _ _ (st_inv _ _ _ Hst)) as Bf. rewrite header_of_write by (auto; lia). eapply pristine_metas; eauto.
Qed.
Lemma tidy_set_meta name s enc : fits w (CSetMeta name s enc) = true -> tidy w (CSetMeta name s enc) = true -> keeps (CSetMeta name s enc).
Proof.
  intros F T. cbn [fits] in F. apply andb_prop in F as [F F3]. apply andb_prop in F as [F1 F2].
  destruct (is_name_ok _ F1) as [Bn Hid]. pose proof (text_bytes_ok _ F2) as Bs. pose proof (bpak_id_bound name Bn) as Bi.
  unfold keeps. cbn [run_cmd]. unfold cli_set_meta. rewrite (st_read _ _ _ _ Hst). cbn [tidy] in T.
  pose proof (st_hm _ _ _ Hst) as M. rewrite (hm_get _ _ _ _ Hid M). rewrite find_find_index in T.
  set (id := bpak_id name) in *. set (h := pk_header p) in *.
  destruct (find_index (has_key id 0) (w_metas w)) as [i|] eqn:Ei; [|exact keeps_file].
  destruct (find_index_split _ _ _ Ei) as (a & x & b & El & Ea & Ex). apply has_key_entry in Ex. rewrite Ex in El. set (v := e_val x) in *.
  pose proof (exact_is _ _ (hm_are _ _ M) Hp) as E. fold h in E. pose proof (fun h' l A B C => write_pristine sha p w h' l Hst A B C Hp) as Wp. fold h in Wp.
  rewrite El in M, E, T. rewrite nth_error_app2, <- Ea, Nat.sub_diag in T by lia. cbn [nth_error e_val] in T. rewrite <- Ea. 
  destruct (slot_at _ _ _ _ _ _ M) as (m & Hm & _ & _ & Es & _).
  assert (Fx : forall n d, bytes_ok d -> zlen d = n -> pristine (header_of (fst (fst
     (let '(h', r) := set_fixed h (length a) n (Some d) in
      match r with Ok _ => (fwrite_at (pk_file p) 0 (enc_header h'), @None bytes, Ok tt) | Err e => (pk_file p, None, Err e) | UB => (pk_file p, None, UB) | Stuck => (pk_file p, None, Stuck) end))))).
  { intros n d Bd Ld. unfold set_fixed. rewrite Hm, Es. destruct (Z.eqb_spec (zlen v) n) as [En|En]; cbn [negb]; [|exact keeps_file].
    destruct (meta_write_ok h a id 0 v b 0 d M ltac:(lia) ltac:(lia) Bd) as (h1 & E1 & H1 & S1). rewrite E1.
    pose proof (exact_write h a id 0 v b 0 d h1 M E ltac:(lia) ltac:(lia) E1) as E2. exact (Wp _ _ H1 S1 E2). }
  destruct enc as [e|].
  - destruct (bytes_eqb e (bytes_of "integer")).
    + destruct (strtol0 s) as [z|]; [exact (Fx 8 (le 8 (u64 z)) (bytes_ok_le _ _) (zlen_le 8 _))|].
      unfold set_fixed. rewrite Hm, Es. destruct (negb _); exact keeps_file.
    + destruct (bytes_eqb e (bytes_of "id")); [exact (Fx 4 (le 4 (bpak_id s)) (bytes_ok_le _ _) (zlen_le 4 _))|exact keeps_file].
  - unfold set_string. rewrite Hm, Es. destruct (Z.gtb_spec (zlen s + 1) (zlen v)) as [|Hl]; [lia|].
    unfold store_string. rewrite Hm, Es. pose proof (zlen_nonneg s) as Hs0.
    assert (L1 : zlen (s ++ [0]) = zlen s + 1) by (rewrite zlen_app; reflexivity).
    assert (B1 : bytes_ok (s ++ [0])).
    { apply Forall_app. split; auto. constructor; [unfold byte_ok; lia|constructor]. }
    destruct (meta_write_ok h a id 0 v b 0 (s ++ [0]) M ltac:(lia) ltac:(lia) B1) as (h1 & E1 & H1 & S1). rewrite E1.
    pose proof (exact_write h a id 0 v b 0 (s ++ [0]) h1 M E ltac:(lia) ltac:(lia) E1) as X1.
    destruct (Z.ltb_spec (zlen v - zlen s - 1) 0); [lia|].
    assert (L2 : zlen (zeros (zlen v - zlen s - 1)) = zlen v - zlen s - 1) by (rewrite zlen_zeros; lia).
    assert (Lw : zlen (splice 0 (s ++ [0]) v) = zlen v) by (apply zlen_splice; lia).
    destruct (meta_write_ok h1 a id 0 (splice 0 (s ++ [0]) v) b (zlen s + 1) (zeros (zlen v - zlen s - 1)) H1 ltac:(lia) ltac:(lia) (bytes_ok_zeros _)) as (h2 & E2 & H2 & S2).
    rewrite E2. pose proof (exact_write h1 a id 0 (splice 0 (s ++ [0]) v) b (zlen s + 1) (zeros (zlen v - zlen s - 1)) h2 H1 X1 ltac:(lia) ltac:(lia) E2) as X2.
    exact (Wp _ _ H2 (same_but_meta_trans _ _ _ S1 S2) X2).
Qed.
Lemma tidy_set_ids key ks : fits w (CSetIds key ks) = true -> keeps (CSetIds key ks).
Proof.
  intros F. cbn [fits] in F. apply andb_prop in F as [F1 F2]. unfold keeps. cbn [run_cmd]. unfold cli_set_ids.
  rewrite (st_read _ _ _ _ Hst). pose proof (inv_wf _ _ _ (st_inv _ _ _ Hst)) as W. pose proof (pkg_files_bound _ _ _ (st_inv _ _ _ Hst)) as Bf.
  assert (B : forall k, text k = true -> 0 <= id_arg k < 2^32).
  { intros k Hk. rewrite id_arg_spec. apply arg_id_bound. now apply text_bytes_ok. }
  assert (Wk : forall h k, wf_header h -> 0 <= k < 2^32 -> wf_header (with_key_id h k)).
  { intros h k [] Hk. constructor; auto. }
  assert (Wks : forall h k, wf_header h -> 0 <= k < 2^32 -> wf_header (with_keystore_id h k)).
  { intros h k [] Hk. constructor; auto. }
  assert (Pk : forall h k, pristine h -> pristine (with_key_id h k)).
  { intros h k [Q1 Q2 Q3 Q4 Q5 Q6 (l & M & [E1 E2])]. constructor; auto. exists l. split; auto. constructor; auto. }
  assert (Pks : forall h k, pristine h -> pristine (with_keystore_id h k)).
  { intros h k [Q1 Q2 Q3 Q4 Q5 Q6 (l & M & [E1 E2])]. constructor; auto. exists l. split; auto. constructor; auto. }
  destruct key as [k|], ks as [k2|]; cbn [opt_text] in *; cbn [fst]; [| | |exact keeps_file]; (rewrite header_of_write; [|auto|lia]); auto.
Qed.
Lemma pristine_signature h s : zlen s <= 512 -> pristine h -> pristine (with_signature h (splice 0 s (zeros 512)) (zlen s)).
Proof.
  intros L [Q1 Q2 Q3 Q4 Q5 Q6 (l & M & [E1 E2])]. constructor; auto.
  - cbn [h_signature h_signature_sz with_signature]. unfold splice. rewrite ztake_0, Z.add_0_l. cbn [app].
    rewrite zdrop_app_r, Z.sub_diag, zdrop_0 by lia. apply zdrop_zeros. apply zlen_nonneg.
  - exists l. split; auto. constructor; auto.
Qed.
Lemma tidy_sign_raw s : fits w (CSignRaw s) = true -> keeps (CSignRaw s).
Proof.
  intros F. unfold keeps. cbn [run_cmd]. unfold cli_sign_raw, with_package. rewrite (st_open _ _ _ Hst).
  destruct s as [s|]; [|exact keeps_file]. cbn [fits] in F. apply andb_prop in F as [F1 F2]. apply all_bytes_ok in F1.
  pose proof (zlen_nonneg s) as Hs. pose proof (inv_wf _ _ _ (st_inv _ _ _ Hst)) as W. pose proof (pkg_files_bound _ _ _ (st_inv _ _ _ Hst)) as Bf.
  rewrite (ztake_all 1024 s) by lia. unfold pkg_write_raw_signature. destruct (Z.gtb_spec (zlen s) 512); [exfalso; lia|].
  unfold pkg_write_header. cbn [pk_header pk_file fst].
  assert (U : u16 (zlen s) = zlen s) by (unfold u16; rewrite Z.mod_small; lia). rewrite U.
  assert (Lz : zlen (zeros 512) = 512) by (rewrite zlen_zeros; reflexivity).
  rewrite header_of_write; [apply pristine_signature; [lia|exact Hp]| |lia].
  destruct W. constructor; cbn [h_magic h_pad0 h_meta h_parts h_metadata h_hash_kind h_signature_kind h_alignment h_payload_hash h_key_id h_keystore_id h_pad1 h_signature h_signature_sz with_signature]; auto.
  - split; [rewrite zlen_splice; lia|]. apply bytes_ok_splice; auto. apply bytes_ok_zeros.
  - lia.
Qed.

(* ---- hash trees ---- *)
Lemma hash_write_metas h f p' : hash_and_write sha (mkPkg h f) = (p', Ok tt) -> h_meta (pk_header p') = h_meta h /\ h_metadata (pk_header p') = h_metadata h.
Proof.
  unfold hash_and_write, pkg_update_hash. cbn [pk_header pk_file]. destruct (compute_payload_hash _ _ _ _ _); try discriminate.
  intros E. injection E as <-. auto.
Qed.
Lemma add_merkle_pristine data name salt flags p' : (length (w_metas w) <= 29)%nat -> bytes_ok name -> bpak_id name <> 0 -> 0 <= flags < 256 -> Z.testbit flags 1 = false ->
  bytes_ok salt -> zlen (pk_file p) + zlen data + 512 <= 2^63 ->
  (forall tree root, build_tree sha data salt = Ok (tree, root) -> bytes_ok root) ->
  pkg_add_file_with_merkle_tree sha p data name salt flags = (p', Ok tt) ->
  tail (pk_header p') = tail (pk_header p) /\ exists live', metas_are (h_meta (pk_header p')) (h_metadata (pk_header p')) live' /\ exact_meta (pk_header p') live'.
Proof.
  intros Hl Bn Hid Hf1 Hf2 Bs Hb Br. pose proof (bpak_id_bound name Bn) as Bi. pose proof (padding_range (zlen data)) as Pr.
  pose proof (op_step sha p w (OAdd name data flags) G Hst) as A. pose proof (op_pristine sha p w (OAdd name data flags) G Hst) as B.
  cbn [pkg_op_ok pkg_op_cost] in A, B. specialize (A ltac:(auto) ltac:(lia)). specialize (B ltac:(auto) eq_refl ltac:(lia) Hp). cbn [run_pkg_op] in A, B.
  pose proof (inv_wf _ _ _ (st_inv _ _ _ Hst)) as W. pose proof (st_inv _ _ _ Hst) as [(es & Hh & _) _ _ _ _ _].
  unfold pkg_add_file_with_merkle_tree. destruct (pkg_add_file sha p data name flags) as [p1 [u|e| |]] eqn:Ea; try discriminate. destruct u. cbn [fst] in B.
  pose proof (add_tail sha p es _ _ _ _ G Hh Ea) as T1.
  destruct (spec_pkg_op bpak_id (w_files w) (OAdd name data flags)) as [[fs x'] y']. destruct A as (_ & _ & S1). cbn [op_metas] in S1.
  rewrite (st_header _ _ _ S1) in B. pose proof (st_hm _ _ _ S1) as M1. cbn [w_metas set_metas set_files] in M1.
  destruct (build_tree sha data salt) as [[tree root]|e| |] eqn:Eb; try discriminate. specialize (Br _ _ eq_refl). cbv zeta.
  destruct (add_meta_bytes (pk_header p1) _ _ salt) as [h2 [u|e| |]] eqn:E2; try discriminate. destruct u.
  destruct (exact_add_bytes (pk_header p1) (w_metas w) ID_MERKLE_SALT (bpak_id name) salt h2 ltac:(unfold ID_MERKLE_SALT; lia) ltac:(lia) Bs M1 (exact_is _ _ (hm_are _ _ M1) B) ltac:(lia) E2) as (X2 & M2 & Q2).
  destruct (add_meta_bytes h2 _ _ root) as [h3 [u|e| |]] eqn:E3; try discriminate. destruct u.
  assert (L2 : (length (w_metas w ++ [mkEntry ID_MERKLE_SALT (bpak_id name) salt]) <= 30)%nat) by (rewrite app_length; cbn [length]; lia).
  destruct (exact_add_bytes h2 _ ID_MERKLE_ROOT_HASH (bpak_id name) root h3 ltac:(unfold ID_MERKLE_ROOT_HASH; lia) ltac:(lia) Br M2 X2 L2 E3) as (X3 & M3 & Q3).
  destruct (add_part h3 _) as [h4 [i|e| |]] eqn:E4; try discriminate. destruct (_ <? 0); [discriminate|].
  assert (K4 : exists ps, h4 = with_parts h3 ps).
  { unfold add_part in E4. destruct (add_part_loop _ _) as [l r]. injection E4 as <- _. eexists. reflexivity. }
  destruct K4 as [ps K4].
  assert (K5 : forall a b c d e, exists ps, fill_part h4 i a b c d e = with_parts h3 ps).
  { intros. unfold fill_part. rewrite K4. destruct (nth_error _ i); eexists; reflexivity. }
  intros Hw. destruct (K5 (part_name_to_hash_tree_id name) (zlen tree) (append_offset (pk_header p1)) 0 flags) as [ps' K]. rewrite K in Hw.
  destruct (sbm_fields _ _ Q2) as (_ & _ & A2 & A3 & _). destruct (sbm_fields _ _ Q3) as (_ & _ & B2 & B3 & _).
  pose proof (inv_wf _ _ _ (st_inv _ _ _ S1)) as W1. pose proof (wf_payload_hash _ W1) as [L1 _].
  destruct (hash_write_metas _ _ _ Hw) as [Y1 Y2]. cbn [h_meta h_metadata with_parts] in Y1, Y2. split.
  - assert (Lp : zlen (h_payload_hash (with_parts h3 ps')) = 64) by (cbn [h_payload_hash with_parts]; rewrite B3, A3; exact L1).
    rewrite (hash_and_write_tail sha _ _ p' G Lp Hw).
    rewrite <- T1. unfold tail. cbn [h_payload_hash h_hash_kind with_parts]. now rewrite B3, A3, B2, A2.
  - eexists. rewrite Y1, Y2. split; [exact (hm_are _ _ M3)|]. destruct X3 as [X3 X4]. constructor; [rewrite Y1; exact X3|rewrite Y2; exact X4].
Qed.
Lemma tidy_add_merkle name data salt dh : fits w (CAddMerkle name data salt dh) = true -> keeps (CAddMerkle name data salt dh).
Proof.
  intros F. pose proof (step_add_merkle sha G p w Hst name data salt dh F) as So. cbn [fits] in F. do 14 (apply andb_prop in F as [F ?]).
  repeat match goal with H : (_ && _) = true |- _ => apply andb_prop in H as [? ?] end.
  repeat match goal with H : negb _ = true |- _ => apply negb_true_iff in H end.
  repeat match goal with H : Nat.leb _ _ = true |- _ => apply Nat.leb_le in H end.
  destruct (is_name_ok name ltac:(assumption)) as [Bn Hid]. destruct (flags_ok dh) as [Hf1 Hf2].
  assert (Hbs : bytes_ok salt) by (apply all_bytes_ok; assumption).
  pose proof Hst as [I M S]. pose proof I as [(es & Hh & O & Fm) P V Hs Ms D]. pose proof (st_size _ _ _ Hst) as Sz.
  assert (Tn : part_name_to_hash_tree_id name = bpak_id (name ++ bytes_of "-hash-tree")) by apply hash_tree_id_name.
  destruct (not_existsb_ids (bpak_id name) (bpak_id (name ++ bytes_of "-hash-tree")) (w_files w) ltac:(assumption)) as [N1 N2].
  assert (Le : length (w_files w) = length es) by (clear - Fm; induction Fm; cbn [length]; congruence).
  assert (Kn : forall k, k = ID_MERKLE_SALT \/ k = ID_MERKLE_ROOT_HASH -> ~ In (k, bpak_id name) (map e_key (w_metas w))).
  { intros k Hk. apply existsb_key_false. apply not_true_iff_false. intros C. apply existsb_exists in C as (e & He & Ke).
    match goal with H : existsb (fun e => has_key _ _ e || has_key _ _ e) _ = false |- _ => apply not_true_iff_false in H; apply H end.
    apply existsb_exists. exists e. split; [exact He|]. destruct Hk as [-> | ->]; rewrite Ke; auto using orb_true_r. }
  destruct (add_merkle_ok sha p es (w_metas w) data name salt (flags_of dh)) as (p' & ls & Hls & At & E & H' & D' & M' & S'); auto; try lia;
    try (eapply plain_of; eauto; fail); try (rewrite (ids_of _ _ Fm); exact N1); try (rewrite Tn, (ids_of _ _ Fm); exact N2).
  destruct (add_merkle_pristine data name salt (flags_of dh) p') as (T & live' & Ml & Ex); auto; try lia.
  { intros tree root Eb. destruct (build_tree_ok sha data salt ls G ltac:(lia) ltac:(lia) ltac:(lia) Hls) as (Eb' & _).
    rewrite Eb in Eb'. injection Eb' as _ ->. unfold root_hash. destruct (zlen data =? 4096); exact (proj2 (G 1 _ eq_refl)). }
  unfold step_ok in So. cbn [run_cmd] in So. unfold keeps. cbn [run_cmd]. unfold cli_add_merkle, with_package in *. rewrite (st_open _ _ _ Hst), part_flags_eq, E in *.
  destruct So as (q & w' & Eq & Sq & _). cbn [fst].
  assert (Hq : header_of (pk_file p') = pk_header p').
  { rewrite (ho_file _ _ H'). apply header_of_enc. apply (ho_wf _ _ H'). }
  rewrite Hq. destruct Hp as [P1 P2 P3 P4 P5 P6 _]. unfold same_besides_parts_meta in S'.
  assert (Pt := proj1 (clean_holds _ _ Hh) P4).
  constructor; try (rewrite S'; assumption); [|rewrite T, P5; rewrite S'; reflexivity|exists live'; auto].
  apply (clean_holds _ _ H'). rewrite map_app. apply Forall_app. split; [exact Pt|]. constructor; [split; reflexivity|]. constructor; [split; reflexivity|constructor].
Qed.
End Steps.
