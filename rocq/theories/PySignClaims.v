(* PySignClaims.v -- signing read-only packages, failing signatures, tampering *)
From Verif Require Import BaseLemmas HeaderModel HeaderSpec CodecProofs PartProofs MetaProofs CrcModel HashModel MerkleModel
  MerkleSpec MerkleSizes MerkleProofs MerkleApi VerifyModel VerifySpec VerifyProofs VerifySign VerifyWitness PkgTrees PkgMerkle CliSign PkgModel PkgSpec PkgProofs PkgHistory PkgApi
  ImageProofs ImageClaims PyModel PySpec PyInv PyProofs PySession PyFrozen PyHash PyClaims PySignModel PySignSpec PySignProofs PySignSession.
Local Open Scope Z_scope.
Local Open Scope list_scope.

Section Claims.
Context {K : Type} (sha : hashfn) (sg : sigscheme K) (pub_of : K -> K) (junk : bytes).
Context (G : good_hash sha).

(* ---- mode "r" ---- *)
Lemma readonly_sign (C : correct_scheme sg pub_of) f a k : package_file f a -> hash_supported (a_kind a) = true -> trees_good sha a -> can_sign sg k ->
  py_sessions2 sha sg junk f [(false, [Sign (Some k); Verify (Some (pub_of k))])] = (f, [[Exc XError; Val (VBool true); Val VNone]]).
Proof using G.
  intros Pf S T Ca.
  assert (Ka : a_kind a <> 0) by (intros E; rewrite E in S; discriminate).
  destruct (open_both_modes sha f a Pf Ka) as (s & E1 & E2 & Iv & Ef).
  pose proof (disk_inv _ _ Iv) as D. destruct (rehashed_hash sha _ _ (forget a) G D S) as (Y1 & Y2 & Y3 & Hr & W).
  set (h1 := rehashed sha (st_header s) (forget a)) in *. set (d := sha (a_kind a) (enc_header (unsigned h1))).
  destruct (G (a_kind a) (enc_header (unsigned h1)) S) as [D1 D2]. fold d in D1, D2.
  destruct (Ca d (a_kind a) S D1) as (sig & Es). destruct (C d (a_kind a) k sig D2 D1 S Es) as (L & B & V).
  set (h2 := with_signature h1 (splice 0 sig (zeros 512)) (u16 (zlen sig))).
  set (s2 := with_pkg (as_mode false s) (mkPkg h2 (st_file s))).
  assert (A1 : py_step2 sha sg junk (as_mode false s) (Sign (Some k)) = (s2, Exc XError)).
  { cbn [py_step2]. unfold py_sign. change (py_pkg (st_obj (as_mode false s))) with (py_pkg (st_obj s)).
    rewrite (pkg_sign_inv sha sg junk G s (forget a) k Iv). change (a_kind (forget a)) with (a_kind a). rewrite S. fold h1 d. rewrite Es. reflexivity. }
  assert (Dk : disk h2 (st_file s) (a_set_sig (forget a) sig)).
  { split; [now apply hinv_sig|]. destruct D as [_ X]. exact X. }
  assert (A2 : py_step2 sha sg junk s2 (Verify (Some (pub_of k))) = (s2, Val (VBool true))).
  { cbn [py_step2]. unfold py_verify, s2. change (py_pkg (st_obj (with_pkg (as_mode false s) (mkPkg h2 (st_file s))))) with (mkPkg h2 (st_file s)).
    rewrite (verify_signed sha sg junk G h2 (st_file s) (a_set_sig (forget a) sig) (pub_of k) Dk T S Y3 V). reflexivity. }
  cbn [py_sessions2]. rewrite E2. cbn [app py_run2]. rewrite A1, A2. cbn [py_step2]. rewrite close_step by discriminate.
  cbn [finished forallb andb]. change (st_file (closed (st_file s2) (st_handles s2))) with (st_file s). rewrite Ef. reflexivity.
Qed.

(* ---- the back end refuses ---- *)
Lemma failed_sign f a k n : package_file f a -> hash_supported (a_kind a) = true ->
  (forall d kind, exists e, sg_sign sg d kind k = Err e) -> 0 <= n < 2^64 ->
  exists f', py_sessions2 sha sg junk f [(true, [Sign (Some k); Plain KSignature; Plain (KSet KeyId (AInt n))])] =
    (f', [[Exc XError; Val (VBytes (zeros (zlen (a_sig a)))); Val VNone; Val VNone]]) /\
    package_file f' (a_set (a_set_sig a (zeros (zlen (a_sig a)))) KeyId n).
Proof using G.
  clear pub_of. intros Pf S No Hn.
  assert (Ka : a_kind a <> 0) by (intros E; rewrite E in S; discriminate).
  destruct (open_both_modes sha f a Pf Ka) as (s & E1 & _ & Iv & Ef).
  pose proof (disk_inv _ _ Iv) as D. destruct (rehashed_hash sha _ _ (forget a) G D S) as (Y1 & Y2 & Y3 & Hr & W).
  set (h1 := rehashed sha (st_header s) (forget a)) in *.
  destruct (hi_sig _ _ (iv_h _ _ Iv)) as (S1 & S2 & S3). change (a_sig (forget a)) with (a_sig a) in *. pose proof (zlen_nonneg (a_sig a)) as L0.
  set (h2 := with_signature h1 (zeros 512) (zlen (a_sig a))).
  assert (A1 : py_step2 sha sg junk s (Sign (Some k)) = (with_pkg s (mkPkg h2 (st_file s)), Exc XError)).
  { cbn [py_step2]. rewrite (sign_eq sha sg junk s (Some k) (iv_fp _ _ Iv)), (call_open s _ (iv_fp _ _ Iv)).
    rewrite (pkg_sign_inv sha sg junk G s (forget a) k Iv). change (a_kind (forget a)) with (a_kind a). rewrite S. fold h1.
    destruct (No (sha (a_kind a) (enc_header (unsigned h1))) (a_kind a)) as [e ->]. cbn [fst snd]. rewrite S2. reflexivity. }
  (* as if the file had been written *)
  assert (Lz : zlen (zeros (zlen (a_sig a))) = zlen (a_sig a)) by (rewrite zlen_zeros; lia).
  assert (H2 : hinv h2 (a_set_sig (forget a) (zeros (zlen (a_sig a))))).
  { pose proof (hinv_sig _ _ (zeros (zlen (a_sig a))) Hr ltac:(lia) (bytes_ok_zeros _)) as X. rewrite Lz in X.
    unfold u16 in X. rewrite Z.mod_small in X by lia.
    replace (splice 0 (zeros (zlen (a_sig a))) (zeros 512)) with (zeros 512) in X; [exact X|].
    unfold splice. rewrite ztake_0. cbn [app]. rewrite Lz, zdrop_zeros by lia. rewrite zeros_app by lia. f_equal. lia. }
  set (s2 := with_pkg s (mkPkg h2 (st_file s))).
  set (s3 := with_pkg s (mkPkg h2 (enc_header h2 ++ body (a_files a)))).
  assert (I3 : py_inv s3 (a_set_sig (forget a) (zeros (zlen (a_sig a))))).
  { destruct Iv as [I1 I2 I3 I4 I5]. constructor; auto. destruct (wf_payload_hash _ (hi_wf _ _ H2)) as [L1 L2]. exists (h_payload_hash h2).
    split; [exact L1|]. split; [exact L2|]. change (st_header s3) with h2. rewrite hash_id. reflexivity. }
  assert (A2 : py_step2 sha sg junk s2 (Plain KSignature) = (s2, Val (VBytes (zeros (zlen (a_sig a)))))).
  { cbn [py_step2 py_step]. unfold py_signature. change (st_header s2) with h2. cbn [h2 with_signature h_signature_sz h_signature].
    destruct (Z.gtb_spec (zlen (a_sig a)) 512); [lia|]. do 3 f_equal. rewrite slice_0, ztake_zeros by lia. f_equal; lia. }
  pose proof (hinv_attr _ _ KeyId n H2) as H4. change (n mod 2^32) with (u32 n) in H4.
  destruct (store_ok0 s3 _ _ (a_set (a_set_sig (forget a) (zeros (zlen (a_sig a)))) KeyId n) VNone I3 H4 eq_refl eq_refl) as (s4 & E4 & I4 & Eh4).
  assert (A3 : py_step2 sha sg junk s2 (Plain (KSet KeyId (AInt n))) = (s4, Val VNone)).
  { cbn [py_step2 py_step]. unfold py_set_attr, as_uint. destruct (Z.ltb_spec n 0); [lia|]. destruct (Z.geb_spec n 18446744073709551616); [lia|]. cbn [orb].
    rewrite <- E4. unfold store. change (py_fp (st_obj s2)) with (py_fp (st_obj s)). change (py_fp (st_obj s3)) with (py_fp (st_obj s)).
    rewrite (iv_fp _ _ Iv). change (st_header s2) with h2.
    destruct D as [_ (hd & D1 & D2)].
    assert (Ew : forall hx, wf_header hx -> fwrite_at (st_file s2) 0 (enc_header hx) = fwrite_at (st_file s3) 0 (enc_header hx)).
    { intros hx Wx. pose proof (zlen_enc_header _ Wx) as La. pose proof (zlen_enc_header _ (hi_wf _ _ H2)) as Lb.
      change (st_file s2) with (st_file s). change (st_file s3) with (enc_header h2 ++ body (a_files (forget a))). rewrite D2.
      rewrite !head_write by (rewrite La; auto). reflexivity. }
    unfold pkg_write_header. cbn [pk_header pk_file]. rewrite (Ew _ (hi_wf _ _ H4)). reflexivity. }
  exists (st_file s4). split.
  - cbn [py_sessions2]. rewrite E1. cbn [app py_run2]. rewrite A1. fold s2. rewrite A2, A3. cbn [py_step2].
    rewrite close_step by (rewrite (iv_fp _ _ I4); discriminate). cbn [finished forallb andb]. reflexivity.
  - exact (file_of_inv _ _ I4).
Qed.

(* ---- two packages under one signature ---- *)
Lemma table_prefix (a b : list parth) n m : a ++ repeat zero_part n = b ++ repeat zero_part m ->
  Forall (fun p => p_id p <> 0) a -> Forall (fun p => p_id p <> 0) b -> a = b.
Proof using.
  revert b. induction a as [|p a IH]; intros [|q b] E A B; cbn [app] in *; auto.
  - destruct n; [discriminate|]. injection E as E _. subst q. inversion B as [|? ? Hz]; subst. elim Hz. reflexivity.
  - destruct m; [discriminate|]. injection E as E _. subst p. inversion A as [|? ? Hz]; subst. elim Hz. reflexivity.
  - injection E as -> E. f_equal. apply (IH b E); [exact (Forall_inv_tail A)|exact (Forall_inv_tail B)].
Qed.
Lemma covered_same : forall fs gs (es1 es2 : list (parth * bytes)), Forall2 file_matches fs es1 -> Forall2 file_matches gs es2 ->
  map fst es1 = map fst es2 -> files_covered fs = files_covered gs ->
  Forall2 (fun f g => f_id f = f_id g /\ f_flags f = f_flags g /\ zlen (f_data f) = zlen (f_data g) /\
             (Z.testbit (f_flags f) 0 = false -> f_data f = f_data g)) fs gs.
Proof using.
  induction fs as [|f fs IH]; intros gs es1 es2 F1 F2 Em Ec.
  - inversion F1; subst. destruct es2; [|discriminate]. inversion F2; subst. constructor.
  - inversion F1 as [|? e1 ? es1' (A1 & A2 & A3 & A4 & A5) N1]; subst. destruct es2 as [|e2 es2]; [discriminate|].
    inversion F2 as [|g ? gs' ? (B1 & B2 & B3 & B4 & B5) N2]; subst. cbn [map] in Em. injection Em as Em1 Em.
    assert (Fl : f_flags f = f_flags g) by congruence. assert (Lz : zlen (f_data f) = zlen (f_data g)) by congruence.
    unfold files_covered in Ec. cbn [filter] in Ec. rewrite <- Fl in Ec. destruct (Z.testbit (f_flags f) 0) eqn:Tb; cbn [negb map concat] in Ec.
    + constructor; [|now apply (IH gs' es1' es2)]. split; [congruence|]. split; [exact Fl|]. split; [exact Lz|]. intros X; rewrite Tb in X; discriminate X.
    + assert (Ls : length (file_stored f) = length (file_stored g)).
      { unfold file_stored. rewrite !app_length. rewrite Lz. unfold zlen in Lz. lia. }
      apply app_inj_len in Ec; [|exact Ls]. destruct Ec as [E1 E2].
      constructor; [|now apply (IH gs' es1' es2)]. split; [congruence|]. split; [exact Fl|]. split; [exact Lz|]. intros _.
      unfold file_stored in E1. apply app_inj_len in E1; [exact (proj1 E1)|]. unfold zlen in Lz. lia.
Qed.
Lemma verify_session f a w k : package_file f a -> a_kind a <> 0 ->
  snd (py_sessions2 sha sg junk f [(w, [Verify (Some k)])]) = [[Val (VBool true); Val VNone]] ->
  pkg_verify sha sg junk (mkPkg (dec_header (ztake 4096 f)) f) k = Ok tt.
Proof using.
  intros Pf Ka V. destruct (open_both_modes sha f a Pf Ka) as (s & E1 & E2 & Iv & Ef).
  assert (Eh : st_header s = dec_header (ztake 4096 f)).
  { rewrite (open_cases sha true f (package_file_len _ _ Pf)) in E1. destruct (valid_header _); try discriminate.
    apply (f_equal snd) in E1. cbv beta iota delta [snd] in E1. injection E1 as <-. reflexivity. }
  assert (X : exists t, py_new sha w (Some f) = (Some f, inl t) /\ py_pkg (st_obj t) = py_pkg (st_obj s) /\ py_fp (st_obj t) = FpOpen w).
  { destruct w; [exists s|exists (as_mode false s)]; auto. split; [exact E1|]. split; [reflexivity|]. exact (iv_fp _ _ Iv). }
  destruct X as (t & Et & Ep & Fp). cbn [py_sessions2] in V. rewrite Et in V. cbn [app py_run2 py_step2] in V. unfold py_verify in V.
  rewrite Ep, pkg_of, Eh, Ef in V. unfold call_c in V. rewrite Fp in V. cbn [snd fst] in V.
  destruct (pkg_verify sha sg junk (mkPkg (dec_header (ztake 4096 f)) f) k) as [[]|e| |]; [reflexivity| | |]; exfalso.
  - cbn [py_step] in V. unfold py_close in V. cbn [with_pkg st_obj py_fp] in V. rewrite Fp in V. discriminate.
  - discriminate.
  - discriminate.
Qed.
Lemma file_facts f a : package_file f a -> exists (es : list (parth * bytes)), let h := dec_header (ztake 4096 f) in
    holds (mkPkg h f) es /\ sizes_ok (h_parts h) /\ hashed_payload f 4096 (h_parts h) = files_covered (a_files a) /\
    Forall (fun p => p_id p <> 0) (map fst es) /\ Forall2 file_matches (a_files a) es /\
    metas_are (h_meta h) (h_metadata h) (a_metas a) /\ slice 0 (h_signature_sz h) (h_signature h) = a_sig a /\
    h_hash_kind h = a_kind a /\ h_signature_kind h = a_sigkind a /\ h_key_id h = a_key a /\ h_keystore_id h = a_keystore a.
Proof using.
  intros (h & es & H & O & F & Pl & M & N & Mg & (Q1 & Q2 & Q3 & Q4) & (S1 & S2 & S3)). exists es. cbv zeta.
  pose proof (ho_file _ _ H) as Ff. pose proof (ho_wf _ _ H) as W. cbn [pk_header pk_file] in *.
  assert (Eh : dec_header (ztake 4096 f) = h) by (rewrite Ff; exact (header_of_enc h _ W)). rewrite Eh.
  assert (D : disk h f a).
  { split.
    - constructor; auto; [exists es|intros []; auto]. unfold headed. rewrite <- Ff. auto.
    - exists (enc_header h). split; [now apply zlen_enc_header|]. now rewrite Ff, (body_eq _ _ F). }
  destruct (disk_ready _ _ _ D) as (_ & Sz & _ & _ & _ & Hp).
  split; [exact H|]. split; [exact Sz|]. split; [exact Hp|]. split.
  { pose proof (ho_nonzero _ _ H) as Nz. clear - Nz. induction Nz; constructor; auto. }
  split; [exact F|]. split; [exact M|]. split; [rewrite S2, slice_0; exact S3|]. auto.
Qed.
Theorem same_signature f1 f2 a1 a2 w1 w2 k : binding_scheme sg ->
  package_file f1 a1 -> package_file f2 a2 -> a_kind a1 <> 0 -> a_kind a2 <> 0 -> a_sig a1 = a_sig a2 ->
  snd (py_sessions2 sha sg junk f1 [(w1, [Verify (Some k)])]) = [[Val (VBool true); Val VNone]] ->
  snd (py_sessions2 sha sg junk f2 [(w2, [Verify (Some k)])]) = [[Val (VBool true); Val VNone]] ->
  hash_collision sha \/ same_package a1 a2.
Proof using G.
  clear pub_of. intros B P1 P2 K1 K2 Sg V1 V2. apply (verify_session f1 a1 w1 k P1 K1) in V1. apply (verify_session f2 a2 w2 k P2 K2) in V2.
  destruct (file_facts f1 a1 P1) as (es1 & T1 & Z1 & H1 & N1 & F1 & M1 & G1 & A1 & A2 & A3 & A4).
  destruct (file_facts f2 a2 P2) as (es2 & T2 & Z2 & H2 & N2 & F2 & M2 & G2 & B1 & B2 & B3 & B4).
  destruct (verify_binds sha sg G junk junk (mkPkg (dec_header (ztake 4096 f1)) f1) (mkPkg (dec_header (ztake 4096 f2)) f2) k B (ho_wf _ _ T1) (ho_wf _ _ T2) Z1 Z2
    ltac:(cbn [pk_header]; congruence) V1 V2) as [Co|(E & Hp & _)]; [now left|right]. cbn [pk_header pk_file] in *.
  apply ho_table in T1, T2. cbn [pk_header] in T1, T2.
  set (h1 := dec_header (ztake 4096 f1)) in *. set (h2 := dec_header (ztake 4096 f2)) in *.
  assert (Ep : h_parts h1 = h_parts h2) by (apply (f_equal h_parts) in E; exact E).
  assert (Em : h_meta h1 = h_meta h2) by (apply (f_equal h_meta) in E; exact E).
  assert (Ed : h_metadata h1 = h_metadata h2) by (apply (f_equal h_metadata) in E; exact E).
  split; [rewrite <- A1, <- B1; apply (f_equal h_hash_kind) in E; exact E|].
  split; [rewrite <- A2, <- B2; apply (f_equal h_signature_kind) in E; exact E|].
  split; [rewrite <- A3, <- B3; apply (f_equal h_key_id) in E; exact E|].
  split; [rewrite <- A4, <- B4; apply (f_equal h_keystore_id) in E; exact E|].
  split. { rewrite <- Em, <- Ed in M2. exact (metas_unique _ _ _ _ M1 M2). }
  apply (covered_same _ _ es1 es2 F1 F2); [|congruence].
  apply (table_prefix _ _ (32 - length es1) (32 - length es2)); auto. congruence.
Qed.

(* ---- files not covered by the hash, but by a hash tree ---- *)
Lemma tree_size data salt ls : 0 < zlen data <= 2^33 -> zlen data mod 4096 = 0 -> hash_levels sha salt data ls ->
  merkle_compute_size (zlen data) = Ok (zlen (hash_tree ls)).
Proof using G.
  intros Hn Ha Hls. destruct (compute_size_spec (zlen data) ltac:(lia)) as [_ C]. destruct (C Ha) as (C1 & _ & C3).
  destruct (proj1 C1 ltac:(lia)) as [sz Es]. rewrite Es.
  destruct (C3 sz Es) as (l & Hl & _ & Esz & _). pose proof (tree_blocks_sum _ _ Hl) as Sum.
  destruct (hash_levels_exists sha salt _ _ G Hl data) as (ls' & Hls' & Hmap); [lia|].
  rewrite <- (hash_levels_fun _ _ _ _ Hls _ Hls') in Hmap. f_equal. rewrite zlen_hash_tree, Hmap, zsum_map. lia.
Qed.
Lemma matches_at fs (es : list (parth * bytes)) i f : Forall2 file_matches fs es -> nth_error fs i = Some f ->
  exists x q c y, es = x ++ (q, c) :: y /\ length x = i /\ file_matches f (q, c).
Proof using.
  intros F. revert i. induction F as [|g [q c] fs es M F IH]; intros [|i] E; cbn [nth_error] in E; try discriminate.
  - injection E as ->. exists [], q, c, es. auto.
  - destruct (IH i E) as (x & q' & c' & y & -> & <- & M'). exists ((q, c) :: x), q', c', y. auto.
Qed.
Lemma sizes_prefix (es1 es2 : list (parth * bytes)) x1 x2 e1 e2 y1 y2 : map fst es1 = map fst es2 ->
  Forall (fun e : parth * bytes => zlen (snd e) = stored_size (fst e)) es1 -> Forall (fun e : parth * bytes => zlen (snd e) = stored_size (fst e)) es2 ->
  es1 = x1 ++ e1 :: y1 -> es2 = x2 ++ e2 :: y2 -> length x1 = length x2 ->
  fst e1 = fst e2 /\ zlen (concat (map snd x1)) = zlen (concat (map snd x2)) /\ zlen (concat (map snd es1)) = zlen (concat (map snd es2)).
Proof using.
  intros Em S1 S2 E1 E2 L.
  assert (Z : forall a b : list (parth * bytes), map fst a = map fst b -> Forall (fun e : parth * bytes => zlen (snd e) = stored_size (fst e)) a ->
    Forall (fun e : parth * bytes => zlen (snd e) = stored_size (fst e)) b -> zlen (concat (map snd a)) = zlen (concat (map snd b))).
  { clear. induction a as [|[q c] a IH]; intros [|[r d] b] E A B; try discriminate; [reflexivity|]. cbn [map fst snd concat] in *. injection E as -> E.
    pose proof (Forall_inv A) as X. pose proof (Forall_inv B) as Y. cbn [fst snd] in X, Y. rewrite !zlen_app, X, Y.
    rewrite (IH b E (Forall_inv_tail A) (Forall_inv_tail B)). reflexivity. }
  pose proof (Z es1 es2 Em S1 S2) as Zt. subst es1 es2. rewrite !map_app in Em. cbn [map] in Em.
  apply app_inj_len in Em; [|rewrite !map_length; exact L]. destruct Em as [Em1 Em2].
  apply Forall_app in S1 as [S1 _]. apply Forall_app in S2 as [S2 _].
  split; [|split; [now apply Z|exact Zt]]. now injection Em2 as -> _.
Qed.
Theorem same_trees f1 f2 a1 a2 w1 w2 k : binding_scheme sg ->
  package_file f1 a1 -> package_file f2 a2 -> a_kind a1 <> 0 -> a_kind a2 <> 0 -> a_sig a1 = a_sig a2 -> trees_good sha a1 ->
  snd (py_sessions2 sha sg junk f1 [(w1, [Verify (Some k)])]) = [[Val (VBool true); Val VNone]] ->
  snd (py_sessions2 sha sg junk f2 [(w2, [Verify (Some k)])]) = [[Val (VBool true); Val VNone]] ->
  hash_collision sha \/
  forall i f g, nth_error (a_files a1) i = Some f -> nth_error (a_files a2) i = Some g ->
    (exists e, In e (a_metas a1) /\ e_id e = ID_MERKLE_ROOT_HASH /\ e_ref e = f_id f) -> hash_collision sha \/ f_data f = f_data g.
Proof using G.
  clear pub_of. intros B P1 P2 K1 K2 Sg [Tg1 Tg2] V1 V2. apply (verify_session f1 a1 w1 k P1 K1) in V1. apply (verify_session f2 a2 w2 k P2 K2) in V2.
  destruct (file_facts f1 a1 P1) as (es1 & T1 & Z1 & H1 & N1 & F1 & M1 & G1 & A1 & A2 & A3 & A4).
  destruct (file_facts f2 a2 P2) as (es2 & T2 & Z2 & H2 & N2 & F2 & M2 & G2 & B1 & B2 & B3 & B4).
  destruct (verify_binds sha sg G junk junk (mkPkg (dec_header (ztake 4096 f1)) f1) (mkPkg (dec_header (ztake 4096 f2)) f2) k B (ho_wf _ _ T1) (ho_wf _ _ T2) Z1 Z2
    ltac:(cbn [pk_header]; congruence) V1 V2) as [Co|(E & Hp & Tr)]; [now left|right]. cbn [pk_header pk_file] in *.
  pose proof (ho_table _ _ T1) as Q1. pose proof (ho_table _ _ T2) as Q2. cbn [pk_header] in Q1, Q2.
  assert (Ep : h_parts (dec_header (ztake 4096 f1)) = h_parts (dec_header (ztake 4096 f2))) by (apply (f_equal h_parts) in E; exact E).
  assert (Em : map fst es1 = map fst es2) by (apply (table_prefix _ _ (32 - length es1) (32 - length es2)); auto; congruence).
  intros i f g Ef Eg (e & He & Hid & Href).
  destruct (Tg2 e He Hid) as (name & f' & t & salt & ls & R1 & R2 & R3 & R4 & R5 & R6 & R7 & R8 & R9 & R10 & R11 & R12).
  assert (f' = f) as ->.
  { apply nth_error_In in Ef. destruct (in_matches _ _ _ F1 Ef) as (x & Hx & Mx). destruct (in_matches _ _ _ F1 R3) as (x' & Hx' & Mx').
    assert (x' = x) as ->. { apply (same_entry es1); auto; [apply (ho_distinct _ _ T1)|]. destruct Mx as (_ & -> & _), Mx' as (_ & -> & _). congruence. }
    destruct Mx as (X1 & X2 & X3 & X4 & X5), Mx' as (Y1 & Y2 & Y3 & Y4 & Y5).
    rewrite X1 in Y1. unfold file_stored in Y1. assert (L : length (f_data f) = length (f_data f')) by (unfold zlen in *; lia).
    apply app_inj_len in Y1; [|exact L]. destruct Y1 as [Y1 _]. destruct f as [i1 l1 d1], f' as [i2 l2 d2]. cbn [f_id f_flags f_data] in *. congruence. }
  destruct (matches_at _ _ _ _ F1 Ef) as (x1 & q & c1 & y1 & E1 & L1 & (C1 & C2 & C3 & C4 & C5)).
  destruct (matches_at _ _ _ _ F2 Eg) as (x2 & q2 & c2 & y2 & E2 & L2 & (D1 & D2 & D3 & D4 & D5)).
  destruct (sizes_prefix es1 es2 x1 x2 _ _ y1 y2 Em (ho_sizes _ _ T1) (ho_sizes _ _ T2) E1 E2 ltac:(congruence)) as (S1 & S2 & S3).
  cbn [fst snd] in *. subst q2.
  destruct (in_matches _ _ _ F1 R5) as ([qt ct] & Ht & (U1 & U2 & U3 & U4 & U5)). cbn [fst snd] in *.
  pose proof (in_split _ _ Ht) as (xt & yt & Et). pose proof T1 as Ta. rewrite E1 in Ta. pose proof T1 as Tb. rewrite Et in Tb. pose proof T2 as Tc. rewrite E2 in Tc.
  pose proof (part_offset_at _ _ _ _ _ Ta) as Oa. pose proof (part_offset_at _ _ _ _ _ Tb) as Ob. pose proof (get_part_at _ _ _ _ _ Tb) as [Gb1 Gb2]. cbn [pk_header] in *.
  assert (Hin : In (q, c1) es1) by (rewrite E1; apply in_elt).
  assert (Hin2 : In (q, c2) es2) by (rewrite E2; apply in_elt).
  destruct (entry_wf _ _ _ T1 Hin) as (Wq & Sq & Bq). destruct (entry_wf _ _ _ T2 Hin2) as (_ & Sq2 & _). cbn [fst snd] in *.
  assert (Dg : zlen (f_data f) = zlen (f_data g)) by congruence.
  pose proof (padding_block _ R9) as Pf. unfold file_stored in C1, D1. rewrite <- Dg, Pf in D1. rewrite Pf in C1. change (zeros 0) with (@nil Z) in *. rewrite app_nil_r in C1, D1. subst c1 c2.
  assert (Lsalt : zlen salt = 32) by (apply (Tg1 _ R7); left; reflexivity).
  destruct (build_tree_ok sha (f_data f) salt ls G R8 R9 Lsalt R10) as (_ & Lt0 & Lt).
  pose proof (tree_size (f_data f) salt ls R8 R9 R10) as Ts.
  assert (Ps : part_size q = zlen (f_data f)) by (rewrite part_size_stored by (auto; lia); now rewrite <- Sq).
  pose proof (ho_file _ _ T1) as Fa. pose proof (ho_file _ _ T2) as Fb. cbn [pk_header pk_file] in Fa, Fb.
  pose proof (zlen_enc_header _ (ho_wf _ _ T1)) as La. pose proof (zlen_enc_header _ (ho_wf _ _ T2)) as Lb. cbn [pk_header] in La, Lb.
  assert (Ll : zlen f1 = 4096 + zlen (concat (map snd es1))) by (rewrite Fa at 1; rewrite zlen_app; lia).
  assert (Ll2 : zlen f2 = 4096 + zlen (concat (map snd es1))) by (rewrite Fb at 1; rewrite zlen_app; lia).
  assert (Lx : zlen (concat (map snd es1)) = zlen (concat (map snd x1)) + zlen (f_data f) + zlen (concat (map snd y1))).
  { rewrite E1, map_app, concat_app. cbn [map snd concat]. rewrite !zlen_app. lia. }
  assert (Lxt : zlen (concat (map snd es1)) = zlen (concat (map snd xt)) + zlen ct + zlen (concat (map snd yt))).
  { rewrite Et, map_app, concat_app. cbn [map snd concat]. rewrite !zlen_app. lia. }
  assert (Lct : zlen ct = zlen (hash_tree ls)).
  { rewrite U1. unfold file_stored. rewrite R11, (padding_block _ Lt). change (zeros 0) with (@nil Z). now rewrite app_nil_r. }
  pose proof (zlen_nonneg (concat (map snd x1))). pose proof (zlen_nonneg (concat (map snd y1))). pose proof (zlen_nonneg (concat (map snd xt))). pose proof (zlen_nonneg (concat (map snd yt))).
  assert (Hr : In (mkEntry ID_MERKLE_ROOT_HASH (p_id q) (e_val e)) (a_metas a1)).
  { rewrite C2, <- Href, <- Hid. destruct e; exact He. }
  destruct (get_meta_in _ _ _ _ _ ID_ROOT_nz M1 Hr) as (mi & Gm & _).
  assert (Hq : In q (h_parts (dec_header (ztake 4096 f1)))) by (rewrite Q1; apply in_or_app; left; exact (in_map fst _ _ Hin)).
  assert (Hq0 : p_id q <> 0) by (rewrite Forall_forall in N1; apply N1; exact (in_map fst _ _ Hin)).
  assert (Tid : part_id_to_hash_tree_id (p_id q) = p_id qt) by (rewrite C2, R4, tree_id_eq, U2, R6; reflexivity).
  assert (Tp : forall ff, zlen ff = 4096 + zlen (concat (map snd es1)) -> tree_present ff (part_offset (dec_header (ztake 4096 f1)) q) (part_size q) (part_offset (dec_header (ztake 4096 f1)) qt)).
  { intros ff Lf. unfold tree_present. rewrite Oa, Ob, Ps, Lf, Ts. split; [lia|]. split; [lia|]. split; [lia|]. exists (zlen (hash_tree ls)). split; [reflexivity|lia]. }
  destruct (Tr q mi qt (length xt) Hq Hq0 Gm ltac:(rewrite Tid; exact Gb1) Gb2 (Tp f1 Ll) (Tp f2 Ll2)) as [Co|Sl]; [now left|right].
  rewrite Oa, Ps in Sl.
  assert (X1 : slice (4096 + zlen (concat (map snd x1))) (zlen (f_data f)) f1 = f_data f).
  { rewrite Fa at 1. rewrite E1, map_app, concat_app. cbn [map snd concat]. rewrite app_assoc. apply slice_app_exact; [rewrite zlen_app; lia|reflexivity]. }
  assert (X2 : slice (4096 + zlen (concat (map snd x1))) (zlen (f_data f)) f2 = f_data g).
  { rewrite Fb at 1. rewrite E2, map_app, concat_app. cbn [map snd concat]. rewrite app_assoc. apply slice_app_exact; [rewrite zlen_app; lia|exact Dg]. }
  rewrite X1, X2 in Sl. exact Sl.
Qed.
End Claims.
