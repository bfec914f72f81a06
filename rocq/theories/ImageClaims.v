(* ImageClaims.v -- reproducible packages *)
From Coq Require Import String.
From Verif Require Import BaseLemmas HeaderModel HeaderSpec HeaderHistory CodecProofs PartProofs MetaProofs CrcModel CrcProofs HashModel
  MerkleModel MerkleSpec MerkleApi VerifyModel VerifySpec VerifyProofs VerifySign VerifyWitness PkgModel PkgSpec PkgProofs PkgAdd PkgDelete PkgHistory PkgApi PkgTrees PkgMerkle
  TransportFile UtilModel PkgForget PkgCanon CliModel CliSpec CliMeta CliArgs CliStep CliProofs CliSign ImageSpec ImageProofs ImageSteps ImageMain.
Local Open Scope Z_scope.
Local Open Scope list_scope.

(* ---- create ---- *)
Lemma create_pristine sha hash sign f hk sk : good_hash sha -> hash_named hash = Some hk -> sign_named sign = Some sk ->
  pristine (header_of (fst (fst (cli_create sha hash sign f)))).
Proof.
  intros G Eh Es. unfold cli_create. rewrite hash_arg_named, sign_arg_named, Eh, Es.
  assert (Hk : hash_supported hk = true /\ 0 <= hk < 2^8).
  { unfold hash_named in Eh. destruct hash; [|injection Eh as <-; split; [reflexivity|lia]].
    destruct (is _ "sha256"); [injection Eh as <-; split; [reflexivity|lia]|]. destruct (is _ "sha384"); [injection Eh as <-; split; [reflexivity|lia]|].
    destruct (is _ "sha512"); [injection Eh as <-; split; [reflexivity|lia]|discriminate]. }
  assert (Sk : 0 <= sk < 2^8).
  { unfold sign_named in Es. destruct sign; [|injection Es as <-; lia].
    destruct (is _ "rsa4096"); [injection Es as <-; lia|]. destruct (is _ "prime256v1"); [injection Es as <-; lia|].
    destruct (is _ "secp384r1"); [injection Es as <-; lia|]. destruct (is _ "secp521r1"); [injection Es as <-; lia|discriminate]. }
  destruct (open_short sha [] G) as [_ Eo]; [cbn; lia|]. rewrite Eo. cbn [app].
  set (h0 := with_signature_kind (with_hash_kind init_header hk) sk). set (f0 := enc_header (fresh_header sha)).
  assert (W0 : wf_header h0).
  { pose proof wf_init_header as []. destruct Hk as [_ Hk]. unfold h0. constructor; auto. }
  assert (U : used (h_parts h0) = []) by reflexivity.
  assert (Sz : sizes_ok (h_parts h0)).
  { apply Forall_forall. intros q Hq. cbn [h_parts h0 with_signature_kind with_hash_kind init_header] in Hq. apply repeat_spec in Hq as ->.
    split; [exact wf_zero_part|reflexivity]. }
  destruct (hash_and_write_spec sha h0 f0 W0 Sz (proj1 Hk)) as (W1 & Ew & Ed); auto.
  { unfold payload_present, hashed_parts. rewrite U. constructor. }
  assert (L0 : zlen (h_payload_hash h0) = 64) by (cbn [h0 h_payload_hash with_signature_kind with_hash_kind init_header]; rewrite zlen_zeros; reflexivity).
  pose proof (hash_and_write_tail sha h0 f0 _ G L0 Ew) as T. rewrite Ew. cbn [fst pk_file pk_header] in *. rewrite header_of_enc by exact W1.
  constructor; try reflexivity.
  - unfold clean. cbn [h_parts with_digest with_payload_hash h0 with_signature_kind with_hash_kind init_header]. apply clean_zero.
  - assert (dl0 : 0 <= digest_len hk) by (unfold digest_len; repeat match goal with |- context [if ?b then _ else _] => destruct b end; lia).
    exact (eq_trans T (zdrop_zeros _ 64 dl0)).
  - exists []. split; [exact metas_are_init|]. constructor; reflexivity.
Qed.

(* ---- all commands ---- *)
Theorem pristine_cmd sha p w c : good_hash sha -> st sha p w -> pristine (pk_header p) -> fits w c = true -> tidy w c = true ->
  pristine (header_of (fst (fst (run_cmd sha c (pk_file p))))).
Proof.
  intros G S P F T. destruct c as [h s|name data dh|name data salt dh|name ref src enc|part enc dec|name s enc|key ks|part keep|keep|part|meta ref|sig].
  - cbn [run_cmd]. pose proof (create_pristine sha h s (pk_file p)) as C.
    destruct (hash_named h) as [hk|] eqn:Eh; [destruct (sign_named s) as [sk|] eqn:Es|].
    + exact (C hk sk G eq_refl eq_refl).
    + unfold cli_create. rewrite hash_arg_named, sign_arg_named, Eh, Es. cbn [fst]. now apply (keeps_file sha p w).
    + unfold cli_create. rewrite hash_arg_named, Eh. cbn [fst]. now apply (keeps_file sha p w).
  - now apply (tidy_add_part sha G p w).
  - now apply (tidy_add_merkle sha G p w).
  - now apply (tidy_add_meta sha p w).
  - now apply (tidy_transport sha p w).
  - now apply (tidy_set_meta sha p w).
  - now apply (tidy_set_ids sha p w).
  - now apply (tidy_delete sha G p w).
  - now apply (tidy_delete_all sha G p w).
  - now apply (tidy_extract_part sha p w).
  - now apply (tidy_extract_meta sha p w).
  - now apply (tidy_sign_raw sha p w).
Qed.
Lemma pristine_cmds sha : good_hash sha -> forall cs p w, st sha p w -> pristine (pk_header p) ->
  exists done rest xs w' p', cs = done ++ rest /\ spec_cmds sha w done xs w' /\
    run_cmds sha done (pk_file p) = (pk_file p', xs) /\ st sha p' w' /\ pristine (pk_header p') /\
    match rest with [] => True | c :: _ => fits w' c = false \/ tidy w' c = false end.
Proof.
  intros G. induction cs as [|c cs IH]; intros p w S P.
  - exists [], [], [], w, p. split; [reflexivity|]. split; [constructor|]. cbn. auto.
  - assert (N : (fits w c = false \/ tidy w c = false) -> exists done rest xs w' p', c :: cs = done ++ rest /\ spec_cmds sha w done xs w' /\
      run_cmds sha done (pk_file p) = (pk_file p', xs) /\ st sha p' w' /\ pristine (pk_header p') /\
      match rest with [] => True | c :: _ => fits w' c = false \/ tidy w' c = false end).
    { intros X. exists [], (c :: cs), [], w, p. split; [reflexivity|]. split; [constructor|]. cbn. auto. }
    destruct (fits w c) eqn:F; [|auto]. destruct (tidy w c) eqn:T; [|auto]. clear N.
    pose proof (cmd_step sha p w c G S F) as St. pose proof (pristine_cmd sha p w c G S P F T) as Pc. unfold step_ok in St.
    destruct (run_cmd sha c (pk_file p)) as [[f1 out] r] eqn:E1. destruct St as (p1 & w1 & E2 & S1 & Sc). cbn [fst] in Pc.
    rewrite <- E2, (st_header _ _ _ S1) in Pc.
    destruct (IH p1 w1 S1 Pc) as (done & rest & xs & w' & p' & -> & Sd & R1 & R2 & R3 & R4).
    exists (c :: done), rest, ((out, r) :: xs), w', p'. split; [reflexivity|]. split; [econstructor; eauto|].
    cbn [run_cmds]. rewrite E1, <- E2, R1. auto.
Qed.
(* a session that starts with create *)
Theorem session_image sha hash sign hk sk cs f : good_hash sha -> hash_named hash = Some hk -> sign_named sign = Some sk ->
  exists done rest xs w, cs = done ++ rest /\ spec_cmds sha (mkWorld hk sk 0 0 [] [] []) done xs w /\
    run_cmds sha (CCreate hash sign :: done) f = (image sha w, (None, Ok tt) :: xs) /\ stored sha (image sha w) w /\
    match rest with [] => True | c :: _ => fits w c = false \/ tidy w c = false end.
Proof.
  intros G Hh Hs. pose proof (create_ok sha hash sign f G) as C. rewrite Hh, Hs in C. pose proof (create_pristine sha hash sign f hk sk G Hh Hs) as P.
  destruct (cli_create sha hash sign f) as [[f' out] r] eqn:Ec. destruct C as (-> & -> & p & E & S). cbn [fst] in P. rewrite <- E, (st_header _ _ _ S) in P.
  destruct (pristine_cmds sha G cs p _ S P) as (done & rest & xs & w & p' & -> & Sd & R1 & R2 & R3 & R4).
  exists done, rest, xs, w. split; [reflexivity|]. split; [exact Sd|]. rewrite <- (pristine_image sha p' w G R2 R3).
  split; [|split; [apply stored_st; eauto|exact R4]]. cbn [run_cmds run_cmd]. rewrite Ec, <- E, R1. reflexivity.
Qed.

(* ---- a file has one contents ---- *)
Lemma app_inj_len {A} (a b c d : list A) : a ++ c = b ++ d -> length a = length b -> a = b /\ c = d.
Proof.
  revert b. induction a as [|x a IH]; intros [|y b] E L; cbn in *; try lia; auto. injection E as -> E. destruct (IH b E ltac:(lia)) as [-> ->]. auto.
Qed.
Lemma contents_unique (es1 : list (parth * bytes)) : forall (es2 : list (parth * bytes)), map fst es1 = map fst es2 ->
  Forall (fun e : parth * bytes => zlen (snd e) = stored_size (fst e)) es1 -> Forall (fun e : parth * bytes => zlen (snd e) = stored_size (fst e)) es2 ->
  concat (map snd es1) = concat (map snd es2) -> es1 = es2.
Proof.
  induction es1 as [|[q1 c1] es1 IH]; intros [|[q2 c2] es2] Em S1 S2 Ec; cbn [map fst snd concat] in *; try discriminate; [reflexivity|].
  injection Em as -> Em. apply Forall_cons_iff in S1 as [A1 S1]. apply Forall_cons_iff in S2 as [A2 S2]. cbn [fst snd] in *.
  assert (Hl : length c1 = length c2) by (unfold zlen in *; lia).
  apply app_inj_len in Ec; [|exact Hl]. destruct Ec as [-> Ec]. f_equal. now apply IH.
Qed.
Lemma files_unique fs1 : forall fs2 (es : list (parth * bytes)), Forall2 file_matches fs1 es -> Forall2 file_matches fs2 es -> fs1 = fs2.
Proof.
  induction fs1 as [|f1 fs1 IH]; intros fs2 es F1 F2; inversion F1 as [|x e y es' (A1 & A2 & A3 & A4 & A5) N1]; subst; inversion F2 as [|f2 e2 fs2' es2' (B1 & B2 & B3 & B4 & B5) N2]; subst; [reflexivity|].
  f_equal; [|eapply IH; eauto]. unfold file_stored in *. assert (L : length (f_data f1) = length (f_data f2)) by (unfold zlen in *; lia).
  rewrite A1 in B1. apply app_inj_len in B1; [|exact L]. destruct B1 as [D _]. destruct f1 as [a1 a2 a3], f2 as [b1 b2 b3]; cbn [f_id f_flags f_data] in *. congruence.
Qed.
Theorem stored_unique sha f w1 w2 : stored sha f w1 -> stored sha f w2 -> w1 = w2.
Proof.
  intros S1 S2. apply stored_st in S1 as (p1 & E1 & S1). apply stored_st in S2 as (p2 & E2 & S2).
  assert (Hh : pk_header p1 = pk_header p2) by (rewrite <- (st_header _ _ _ S1), <- (st_header _ _ _ S2); congruence).
  assert (Hp : p1 = p2) by (destruct p1 as [x1 y1], p2 as [x2 y2]; cbn [pk_header pk_file] in *; congruence). clear Hh. subst p2. clear E1 E2.
  pose proof S1 as [[(es1 & H1 & O1 & F1) _ _ _ _ _] M1 (A1 & A2 & A3 & A4 & A5 & A6)].
  pose proof S2 as [[(es2 & H2 & O2 & F2) _ _ _ _ _] M2 (B1 & B2 & B3 & B4 & B5 & B6)].
  pose proof (metas_unique _ _ _ _ (hm_are _ _ M1) (hm_are _ _ M2)) as Em.
  assert (Tb : map fst es1 = map fst es2).
  { pose proof (ho_table _ _ H1) as T1. pose proof (ho_table _ _ H2) as T2. rewrite T1 in T2. clear - T2 H1 H2.
    assert (U : forall es, holds p1 es -> used (map fst es ++ repeat zero_part (32 - length es)) = map fst es).
    { intros es H. pose proof (used_table (map fst es)) as X. unfold table in X. rewrite map_length in X. apply X. apply Forall_map. apply (ho_nonzero _ _ H). }
    rewrite <- (U es1 H1), <- (U es2 H2), T2. reflexivity. }
  assert (Ees : es1 = es2).
  { apply contents_unique; [exact Tb|apply (ho_sizes _ _ H1)|apply (ho_sizes _ _ H2)|].
    pose proof (ho_file _ _ H1) as X1. rewrite (ho_file _ _ H2) in X1. apply app_inv_head in X1. now symmetry. }
  subst es2. pose proof (files_unique _ _ _ F1 F2) as Ef. destruct w1 as [x1 x2 x3 x4 x5 x6 x7], w2 as [y1 y2 y3 y4 y5 y6 y7]; cbn [w_hash w_sign w_key w_keystore w_sig w_files w_metas] in *. congruence.
Qed.

(* ---- a package that is its image has no stale bytes ---- *)
Lemma wf_meta_table ms : forall off slots, layout off slots ms -> Forall wf_meta slots -> Forall wf_meta (meta_table off ms).
Proof.
  induction ms as [|e ms IH]; intros off slots L W; cbn [layout meta_table] in *; [constructor|]. destruct slots as [|m s]; [destruct L|].
  destruct L as (L1 & L2 & L3 & L4 & L5). apply Forall_cons_iff in W as [(W1 & W2 & W3 & W4 & _) W]. constructor; [|eapply IH; eauto].
  unfold wf_meta. cbn [m_id m_size m_offset m_ref m_pad]. rewrite <- L1, <- L2, <- L3, <- L4, zlen_zeros. 
  repeat split; try lia; try tauto. apply bytes_ok_zeros.
Qed.
Lemma bytes_ok_values ms md : forall off, data_ok off md ms -> bytes_ok md -> bytes_ok (meta_values ms).
Proof.
  induction ms as [|e ms IH]; intros off D B; [constructor|]. cbn [data_ok] in D. destruct D as (_ & D2 & D3). rewrite meta_values_cons. apply bytes_ok_app.
  split; [|eapply IH; eauto]. unfold zero_pad. apply bytes_ok_app. split; [|apply bytes_ok_zeros]. rewrite <- D2. now apply bytes_ok_slice.
Qed.
Lemma wf_part_table fs : forall (es : list (parth * bytes)) pos, Forall2 file_matches fs es -> offsets_from pos es -> Forall wf_part (map fst es) ->
  Forall wf_part (part_table pos fs).
Proof.
  induction fs as [|f fs IH]; intros es pos F O W; inversion F as [|x [q c] y t (M1 & M2 & M3 & M4 & M5) N]; subst; cbn [part_table]; [constructor|].
  cbn [map fst snd offsets_from] in *. destruct O as [O1 O2]. apply Forall_cons_iff in W as [(W1 & W2 & W3 & W4 & W5 & W6 & W7) W]. subst c. constructor; [|eapply IH; eauto].
  unfold wf_part. cbn [p_id p_size p_offset p_transport_size p_pad_bytes p_flags p_pad]. rewrite M2 in W1. rewrite M3 in W6. rewrite M4 in W2. rewrite M5 in W5. rewrite O1 in W3. repeat split; try lia; tauto.
Qed.
Lemma length_part_table fs : forall pos, length (part_table pos fs) = length fs.
Proof. induction fs as [|f fs IH]; intros pos; [reflexivity|]. cbn [part_table length]. now rewrite IH. Qed.
Lemma image_pristine sha p w : good_hash sha -> st sha p w -> pk_file p = image sha w -> pristine (pk_header p).
Proof.
  intros G S Ei. pose proof S as [I M St]. pose proof I as [(es & H & O & F) _ V Hs _ D]. destruct St as (S1 & S2 & S3 & S4 & S5 & S6).
  pose proof (ho_wf _ _ H) as W. pose proof (hm_are _ _ M) as Ma. apply metas_are_iff in Ma as (M1 & M2 & _ & _ & M5 & M6).
  assert (Ls : length es = length (w_files w)) by (clear - F; induction F; cbn [length]; lia).
  pose proof (ho_count _ _ H) as Hc. pose proof (hm_room _ _ M) as Hr. pose proof (zlen_nonneg (w_sig w)) as Hg.
  assert (Lsig : zlen (w_sig w) <= 512).
  { rewrite <- S6, slice_0. destruct (wf_signature _ W) as [X _]. rewrite zlen_ztake by (destruct (wf_signature_sz _ W); lia). lia. }
  destruct (G (w_hash w) (files_covered (w_files w)) ltac:(rewrite <- S1; exact Hs)) as [Ld Bd]. pose proof (digest_len_le (w_hash w)) as Dl.
  assert (Dm : meta_end (w_metas w) <= 1920) by (pose proof (data_ok_end 0 _ _ ltac:(lia) eq_refl ltac:(lia) M6); lia).
  set (hx := mkHeader 1112555826 (zeros 4) (meta_table 0 (w_metas w) ++ repeat zero_meta (32 - length (w_metas w)))
     (part_table 4096 (w_files w) ++ repeat zero_part (32 - length (w_files w))) (zero_pad 1920 (meta_values (w_metas w)))
     (w_hash w) (w_sign w) 512 (zero_pad 64 (sha (w_hash w) (files_covered (w_files w)))) (w_key w) (w_keystore w) (zeros 42)
     (zero_pad 512 (w_sig w)) (zlen (w_sig w))).
  assert (Wx : wf_header hx).
  { constructor; cbn [hx h_magic h_pad0 h_meta h_parts h_metadata h_hash_kind h_signature_kind h_alignment h_payload_hash h_key_id h_keystore_id h_pad1 h_signature h_signature_sz]; try lia.
    - split; [reflexivity|apply bytes_ok_zeros].
    - split; [rewrite app_length, length_meta_table, repeat_length; lia|]. apply Forall_app. split.
      + eapply wf_meta_table; [exact M5|apply (wf_metas _ W)].
      + apply Forall_forall. intros m Hm. apply repeat_spec in Hm as ->. exact wf_zero_meta.
    - split; [rewrite app_length, length_part_table, repeat_length; lia|]. apply Forall_app. split.
      + eapply wf_part_table; [exact F|exact O|]. pose proof (wf_parts _ W) as [_ Wp]. rewrite (ho_table _ _ H) in Wp. now apply Forall_app in Wp as [Wp _].
      + apply Forall_forall. intros m Hm. apply repeat_spec in Hm as ->. exact wf_zero_part.
    - split; [apply zlen_zero_pad; rewrite zlen_meta_values; exact Dm|]. unfold zero_pad. apply bytes_ok_app. split; [|apply bytes_ok_zeros].
      eapply bytes_ok_values; [exact M6|apply (wf_metadata _ W)].
    - rewrite <- S1. apply (wf_hash_kind _ W).
    - rewrite <- S2. apply (wf_signature_kind _ W).
    - split; [apply zlen_zero_pad; lia|]. unfold zero_pad. apply bytes_ok_app. split; [exact Bd|apply bytes_ok_zeros].
    - rewrite <- S3. apply (wf_key_id _ W).
    - rewrite <- S4. apply (wf_keystore_id _ W).
    - split; [rewrite zlen_zeros; reflexivity|apply bytes_ok_zeros].
    - split; [apply zlen_zero_pad; lia|]. unfold zero_pad. apply bytes_ok_app. split; [|apply bytes_ok_zeros].
      rewrite <- S6. apply bytes_ok_slice. apply (wf_signature _ W). }
  assert (Ex : pk_header p = hx).
  { rewrite <- (st_header _ _ _ S), Ei.
    assert (Eq : image sha w = enc_header hx ++ concat (map file_stored (w_files w))); [|rewrite Eq; now apply header_of_enc].
    unfold enc_header, image. cbn [hx h_magic h_pad0 h_meta h_parts h_metadata h_hash_kind h_signature_kind h_alignment h_payload_hash h_key_id h_keystore_id h_pad1 h_signature h_signature_sz].
    rewrite !flat_map_app, flat_zero_meta, flat_zero_part, flat_meta_table, flat_part_table.
    assert (E1 : zero_pad 512 (meta_rows 0 (w_metas w)) = meta_rows 0 (w_metas w) ++ zeros (16 * Z.of_nat (32 - length (w_metas w)))).
    { unfold zero_pad. rewrite zlen_meta_rows. f_equal. f_equal. unfold zlen. lia. }
    assert (E2 : zero_pad 1024 (part_rows 4096 (w_files w)) = part_rows 4096 (w_files w) ++ zeros (32 * Z.of_nat (32 - length (w_files w)))).
    { unfold zero_pad. rewrite zlen_part_rows. f_equal. f_equal. unfold zlen. lia. }
    rewrite E1, E2, <- !app_assoc. reflexivity. }
  pose proof (hm_are _ _ M) as Ma. rewrite Ex in *. constructor; try reflexivity.
  - unfold clean. cbn [hx h_parts]. apply Forall_app. split; [|apply clean_zero]. generalize 4096 as pos. generalize (w_files w) as fs. clear.
    induction fs as [|f fs IH]; intros pos; cbn [part_table]; constructor; auto.
  - unfold tail. cbn [hx h_payload_hash h_hash_kind]. unfold zero_pad. rewrite zdrop_app_r by lia. rewrite Ld, Z.sub_diag, zdrop_0. reflexivity.
  - cbn [hx h_signature h_signature_sz]. unfold zero_pad. rewrite zdrop_app_r by lia. rewrite Z.sub_diag, zdrop_0. reflexivity.
  - exists (w_metas w). split; [exact Ma|]. constructor; reflexivity.
Qed.

(* ---- sessions ---- *)
Theorem create_image sha hash sign hk sk f : good_hash sha -> hash_named hash = Some hk -> sign_named sign = Some sk ->
  let w := mkWorld hk sk 0 0 [] [] [] in
  run_cmd sha (CCreate hash sign) f = (image sha w, None, Ok tt) /\ stored sha (image sha w) w.
Proof.
  intros G Hh Hs. pose proof (create_ok sha hash sign f G) as C. rewrite Hh, Hs in C. pose proof (create_pristine sha hash sign f hk sk G Hh Hs) as P.
  cbn [run_cmd]. destruct (cli_create sha hash sign f) as [[f' out] r] eqn:Ec. destruct C as (-> & -> & p & E & S). cbn [fst] in P. rewrite <- E, (st_header _ _ _ S) in P.
  cbn zeta. rewrite <- (pristine_image sha p _ G S P), E. split; [reflexivity|]. apply stored_st. eauto.
Qed.
Theorem cmds_image sha cs w : good_hash sha -> stored sha (image sha w) w ->
  exists done rest xs w', cs = done ++ rest /\ spec_cmds sha w done xs w' /\
    run_cmds sha done (image sha w) = (image sha w', xs) /\ stored sha (image sha w') w' /\
    match rest with [] => True | c :: _ => fits w' c = false \/ tidy w' c = false end.
Proof.
  intros G S. apply stored_st in S as (p & E & S). pose proof (image_pristine sha p w G S E) as P.
  destruct (pristine_cmds sha G cs p _ S P) as (done & rest & xs & w' & p' & -> & Sd & R1 & R2 & R3 & R4).
  exists done, rest, xs, w'. split; [reflexivity|]. split; [exact Sd|]. rewrite <- (pristine_image sha p' w' G R2 R3), <- E.
  split; [exact R1|]. split; [apply stored_st; eauto|exact R4].
Qed.
Theorem sign_image {K} sha (sg : sigscheme K) pub_of junk w key s : good_hash sha -> correct_scheme sg pub_of -> stored sha (image sha w) w ->
  sg_sign sg (sha (w_hash w) (enc_header (unsigned (dec_header (ztake 4096 (image sha w)))))) (w_hash w) key = Ok s ->
  cli_sign sha sg junk (Ok key) (image sha w) = (image sha (set_sig w s), None, Ok tt) /\ stored sha (image sha (set_sig w s)) (set_sig w s).
Proof.
  intros G C S Sg. apply stored_st in S as (p & E & S). pose proof (image_pristine sha p w G S E) as P. rewrite <- E in *.
  change (dec_header (ztake 4096 (pk_file p))) with (header_of (pk_file p)) in Sg. rewrite (st_header _ _ _ S) in Sg.
  destruct (sign_step sha sg pub_of junk (zeros 64) p w key s G C S Sg) as (p' & E1 & S1 & Eh & Ls & _). pose proof (zlen_nonneg s) as Hs.
  assert (P' : pristine (pk_header p')).
  { rewrite Eh. rewrite <- splice_in_zeros by exact Ls. now apply pristine_signature. }
  rewrite <- (pristine_image sha p' _ G S1 P'). split; [exact E1|]. apply stored_st. eauto.
Qed.
Lemma next sha f w c : good_hash sha -> stored sha f w -> fits w c = true ->
  let '(f', out, r) := run_cmd sha c f in exists w', stored sha f' w' /\ spec_cmd sha w c w' out r.
Proof.
  intros G S F. apply stored_st in S as (p & <- & S). pose proof (cmd_step sha p w c G S F) as X. unfold step_ok in X.
  destruct (run_cmd sha c (pk_file p)) as [[f' out] r]. destruct X as (p' & w' & E & S' & Sc). exists w'. split; [apply stored_st; eauto|exact Sc].
Qed.
