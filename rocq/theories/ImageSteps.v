(* ImageSteps.v -- commands keep the unused bytes of a package zero *)
From Coq Require Import String.
From Verif Require Import BaseLemmas HeaderModel HeaderSpec HeaderHistory CodecProofs PartProofs MetaProofs CrcModel CrcProofs HashModel
  MerkleModel MerkleSpec MerkleApi VerifyModel VerifySpec VerifyProofs VerifySign VerifyWitness PkgModel PkgSpec PkgProofs PkgAdd PkgDelete PkgHistory PkgApi PkgTrees PkgMerkle
  TransportFile UtilModel PkgForget PkgCanon CliModel CliSpec CliMeta CliArgs CliStep CliProofs CliSign ImageSpec ImageProofs.
Local Open Scope Z_scope.
Local Open Scope list_scope.

Record pristine (h : header) : Prop := {
  pr_pad0 : h_pad0 h = zeros 4;
  pr_pad1 : h_pad1 h = zeros 42;
  pr_align : h_alignment h = 512;
  pr_parts : clean h;
  pr_tail : tail h = zeros (64 - digest_len (h_hash_kind h));
  pr_sig : zdrop (h_signature_sz h) (h_signature h) = zeros (512 - h_signature_sz h);
  pr_meta : exists live, metas_are (h_meta h) (h_metadata h) live /\ exact_meta h live }.

(* ---- the image ---- *)
Lemma table_unique fs : forall (es : list (parth * bytes)) pos, Forall2 file_matches fs es -> offsets_from pos es ->
  Forall (fun q => p_transport_size q = 0 /\ p_pad q = 0) (map fst es) -> map fst es = part_table pos fs.
Proof.
  induction fs as [|f fs IH]; intros es pos F O C.
  - inversion F; subst. reflexivity.
  - inversion F as [|x1 [q c] y1 t M N]; subst. cbn [map fst part_table] in *. apply Forall_cons_iff in C as [[C1 C2] C3].
    cbn [offsets_from fst snd] in O. destruct O as [O1 O2]. destruct M as (A1 & A2 & A3 & A4 & A5). cbn [fst snd] in *. subst c.
    rewrite (IH t (pos + zlen (file_stored f)) N O2 C3). f_equal. clear - A2 A3 A4 A5 C1 C2 O1.
    destruct q as [a1 a2 a3 a4 a5 a6 a7]; cbn [p_id p_size p_offset p_transport_size p_pad_bytes p_flags p_pad] in *. congruence.
Qed.
Theorem pristine_image sha p w : good_hash sha -> st sha p w -> pristine (pk_header p) -> pk_file p = image sha w.
Proof.
  intros G S P. pose proof S as [I M St]. pose proof I as [(es & H & O & F) _ V Hs _ D]. destruct P as [P1 P2 P3 P4 P5 P6 (live & Ml & Em)].
  pose proof (metas_unique _ _ _ _ Ml (hm_are _ _ M)). subst live. destruct St as (S1 & S2 & S3 & S4 & S5 & S6).
  pose proof (proj1 (clean_holds _ _ H) P4) as Cl. pose proof (table_unique _ _ _ F O Cl) as Tb.
  assert (Ls : length es = length (w_files w)) by (clear - F; induction F; cbn [length]; lia).
  rewrite (ho_file _ _ H). unfold enc_header, image. pose proof (ho_table _ _ H) as Ht. set (h := pk_header p) in *.
  apply valid_header_iff in V as (V1 & _). rewrite V1, P1, (em_table _ _ Em), Ht, Tb, (em_values _ _ Em), S1, S2, P3, S3, S4, P2.
  rewrite !flat_map_app, flat_zero_meta, flat_zero_part, flat_meta_table, flat_part_table, Ls.
  assert (E1 : zero_pad 512 (meta_rows 0 (w_metas w)) = meta_rows 0 (w_metas w) ++ zeros (16 * Z.of_nat (32 - length (w_metas w)))).
  { unfold zero_pad. rewrite zlen_meta_rows. f_equal. f_equal. unfold zlen. pose proof (hm_room _ _ M). lia. }
  assert (E2 : zero_pad 1024 (part_rows 4096 (w_files w)) = part_rows 4096 (w_files w) ++ zeros (32 * Z.of_nat (32 - length (w_files w)))).
  { unfold zero_pad. rewrite zlen_part_rows. f_equal. f_equal. unfold zlen. pose proof (ho_count _ _ H). lia. }
  assert (E3 : h_payload_hash h = zero_pad 64 (sha (w_hash w) (files_covered (w_files w)))).
  { rewrite S1, slice_0 in D. unfold tail in P5. rewrite S1 in P5. rewrite <- (ztake_zdrop (digest_len (w_hash w)) (h_payload_hash h)), D, P5.
    unfold zero_pad. destruct (G (w_hash w) (files_covered (w_files w)) ltac:(rewrite <- S1; exact Hs)) as [L _]. now rewrite L. }
  assert (E4 : h_signature h = zero_pad 512 (w_sig w)).
  { rewrite slice_0 in S6. rewrite <- (ztake_zdrop (h_signature_sz h) (h_signature h)), S6, P6, S5. reflexivity. }
  assert (E5 : concat (map snd es) = concat (map file_stored (w_files w))).
  { f_equal. clear - F. induction F as [|f e fs es (E & _) _ IH]; [reflexivity|]. cbn [map]. now rewrite E, IH. }
  rewrite E1, E2, E3, E4, E5, S5. rewrite <- !app_assoc. reflexivity.
Qed.

(* ---- headers ---- *)
Lemma pristine_besides h h' : same_besides_parts h h' -> clean h' -> tail h' = tail h -> pristine h -> pristine h'.
Proof.
  intros S C T [P1 P2 P3 P4 P5 P6 (live & M & [Em1 Em2])]. unfold same_besides_parts in S.
  constructor; auto; try (rewrite S; assumption).
  - rewrite T, P5. f_equal. rewrite S. reflexivity.
  - exists live. rewrite S. split; [exact M|]. constructor; [exact Em1|exact Em2].
Qed.
Lemma pristine_metas h h' live : same_but_meta h h' -> metas_are (h_meta h') (h_metadata h') live -> exact_meta h' live -> pristine h -> pristine h'.
Proof.
  intros S M E [P1 P2 P3 P4 P5 P6 _]. unfold same_but_meta in S.
  constructor; try (rewrite S; assumption). exists live. auto.
Qed.
Lemma exact_is h live : metas_are (h_meta h) (h_metadata h) live -> pristine h -> exact_meta h live.
Proof. intros M [_ _ _ _ _ _ (l & Ml & E)]. rewrite (metas_unique _ _ _ _ M Ml). exact E. Qed.

Lemma table_upd live m h : h_meta h = meta_table 0 live ++ repeat zero_meta (32 - length live) -> (length live < 32)%nat ->
  nth_error (h_meta h) (length live) = Some zero_meta /\
  list_upd (length live) m (h_meta h) = (meta_table 0 live ++ [m]) ++ repeat zero_meta (31 - length live).
Proof.
  intros E L. rewrite E. replace (32 - length live)%nat with (S (31 - length live)) by lia. cbn [repeat]. split.
  - rewrite nth_error_app2 by (rewrite length_meta_table; lia). rewrite length_meta_table, Nat.sub_diag. reflexivity.
  - rewrite list_upd_app, length_meta_table. rewrite Nat.ltb_irrefl, Nat.sub_diag. cbn [list_upd]. now rewrite <- app_assoc.
Qed.
(* an entry appended: any part of its value is written, the rest is zero *)
Lemma exact_append h live id ref n d : exact_meta h live -> (length live < 32)%nat -> zlen d <= n -> meta_end live + n <= 1920 -> meta_end live mod 8 = 0 ->
  exact_meta (with_metadata (with_meta h (list_upd (length live) (mkMeta id n (meta_end live) ref (zeros 4)) (h_meta h)))
                            (splice (meta_end live) d (h_metadata h)))
             (live ++ [mkEntry id ref (zero_pad n d)]).
Proof.
  intros [E1 E2] L Hd Hn H8. destruct (table_upd live (mkMeta id n (meta_end live) ref (zeros 4)) h E1 L) as [_ U].
  pose proof (zlen_zero_pad n d Hd) as Lz. pose proof (zlen_nonneg d) as Hd0. pose proof (meta_end_nonneg live) as Hm.
  constructor; cbn [h_meta h_metadata with_metadata with_meta].
  - rewrite U, meta_table_app. cbn [meta_table e_id e_ref e_val]. rewrite Lz, Z.add_0_l, app_length. cbn [length].
    replace (32 - (length live + 1))%nat with (31 - length live)%nat by lia. reflexivity.
  - rewrite E2, meta_values_app, meta_values_cons. cbn [e_val]. change (meta_values []) with (@nil Z). rewrite app_nil_r, Lz.
    assert (A : n <= align8 n /\ meta_end live + align8 n <= 1920).
    { pose proof (align8_ge n). split; [lia|]. unfold align8 in *. pose proof (Z.div_mod (meta_end live) 8 ltac:(lia)). rewrite H8 in *.
      assert ((n + 7) / 8 * 8 <= 1920 - meta_end live); [|lia]. assert (n + 7 < (1920 - meta_end live) + 8) by lia.
      assert ((n + 7) / 8 < (1920 - meta_end live) / 8 + 1).
      { apply Z.div_lt_upper_bound; [lia|]. replace (8 * ((1920 - meta_end live) / 8 + 1)) with (1920 - meta_end live + 8); [lia|].
        pose proof (Z.div_mod (1920 - meta_end live) 8 ltac:(lia)). assert ((1920 - meta_end live) mod 8 = 0); [|lia].
        rewrite Zminus_mod, H8. reflexivity. }
      pose proof (Z.div_mod (1920 - meta_end live) 8 ltac:(lia)). assert ((1920 - meta_end live) mod 8 = 0); [|lia].
      rewrite Zminus_mod, H8. reflexivity. }
    assert (Lp : zlen (zero_pad (align8 n) (zero_pad n d)) = align8 n) by (apply zlen_zero_pad; lia).
    assert (Ev : forall x : bytes, zlen x = meta_end live -> splice (meta_end live) d (zero_pad 1920 x) = zero_pad 1920 (x ++ zero_pad (align8 n) (zero_pad n d))).
    { intros x Lx. unfold zero_pad at 1. unfold splice. rewrite ztake_app_l, ztake_all by lia. rewrite zdrop_app_r by lia.
      replace (meta_end live + zlen d - zlen x) with (zlen d) by lia. rewrite Lx.
      unfold zero_pad at 1. rewrite zlen_app, Lp, Lx, <- app_assoc. f_equal.
      unfold zero_pad at 1. rewrite Lz. unfold zero_pad at 1. rewrite <- !app_assoc. f_equal. rewrite !zeros_app by lia.
      rewrite zdrop_zeros by lia. f_equal. lia. }
    apply Ev. apply zlen_meta_values.
Qed.
Lemma splice_mid {A} (x v r d : list A) k : 0 <= k -> k + zlen d <= zlen v -> splice (zlen x + k) d (x ++ v ++ r) = x ++ splice k d v ++ r.
Proof.
  intros Hk Hd. pose proof (zlen_nonneg d). pose proof (zlen_nonneg x). unfold splice. rewrite ztake_app_r by lia.
  replace (zlen x + k - zlen x) with k by lia. rewrite ztake_app_l by lia. rewrite (zdrop_app_r _ x) by lia.
  replace (zlen x + k + zlen d - zlen x) with (k + zlen d) by lia. rewrite zdrop_app_l by lia. now rewrite <- !app_assoc.
Qed.
Lemma exact_write h a id ref v b k d h' : hm h (a ++ mkEntry id ref v :: b) -> exact_meta h (a ++ mkEntry id ref v :: b) -> 0 <= k -> k + zlen d <= zlen v ->
  meta_write h (length a) k d = Ok h' -> exact_meta h' (a ++ mkEntry id ref (splice k d v) :: b).
Proof.
  intros M [E1 E2] Hk Hd. pose proof (hm_are _ _ M) as (M1 & Ml & _ & _ & _ & H & _). destruct (H (length a) (mkEntry id ref v)) as (B & _ & m & Hm & _ & _ & Es & Eo).
  { rewrite nth_error_app2, Nat.sub_diag by lia. reflexivity. }
  cbn [e_val] in *. rewrite firstn_app, Nat.sub_diag, firstn_all, firstn_O, app_nil_r in *. pose proof (zlen_nonneg d) as Hd0.
  assert (Ls : zlen (splice k d v) = zlen v) by (apply zlen_splice; lia).
  unfold meta_write. rewrite Hm, Eo. destruct (_ >? _); [discriminate|]. intros X. injection X as <-. constructor; cbn [h_meta h_metadata with_metadata].
  - rewrite E1, !meta_table_app. cbn [meta_table e_id e_ref e_val]. rewrite Ls, !app_length. reflexivity.
  - rewrite E2, !meta_values_app, !meta_values_cons. cbn [e_val]. rewrite Ls. rewrite <- (zlen_meta_values a).
    assert (Z1 : forall y : bytes, zlen y = zlen v -> zero_pad 1920 (meta_values a ++ zero_pad (align8 (zlen v)) y ++ meta_values b) =
      meta_values a ++ y ++ zeros (align8 (zlen v) - zlen v) ++ meta_values b ++
       zeros (1920 - zlen (meta_values a ++ zero_pad (align8 (zlen v)) v ++ meta_values b))).
    { intros y Ly. unfold zero_pad. rewrite !zlen_app, Ly. rewrite <- !app_assoc. reflexivity. }
    rewrite !Z1 by auto. apply splice_mid; auto.
Qed.

Lemma exact_add_bytes h live id ref v h' : 0 < id < 2^32 -> 0 <= ref < 2^32 -> bytes_ok v -> hm h live -> exact_meta h live -> (length live <= 30)%nat ->
  add_meta_bytes h id ref v = (h', Ok tt) -> exact_meta h' (live ++ [mkEntry id ref v]) /\ hm h' (live ++ [mkEntry id ref v]) /\ same_but_meta h h'.
Proof.
  intros Hid Href Bv M E Hl Ha. pose proof (add_meta_bytes_cases h live id ref v Hid Href Bv M Hl) as C.
  destruct (existsb (has_key id ref) live) eqn:Ex; [rewrite Ha in C; discriminate|].
  destruct (Z.ltb_spec 1920 (meta_end live + zlen v)) as [|Hend]; [rewrite Ha in C; discriminate|].
  destruct C as (h1 & C1 & C2 & C3). rewrite Ha in C1. injection C1 as <-. split; [|auto].
  unfold add_meta_bytes in Ha. pose proof (add_meta_spec h live id ref (zlen v) ltac:(lia) (hm_are _ _ M)) as A.
  assert (Hf : find_index (fun e => (e_id e =? id) && (e_ref e =? ref)) live = None) by (apply find_key_None; now apply existsb_key_false).
  rewrite Hf in A. destruct (Nat.eqb_spec (length live) 32); [lia|]. destruct A as (m & Hm & Em & A). rewrite A in Ha.
  unfold METADATA_BYTES in Ha. destruct (Z.gtb_spec (meta_end live + zlen v) 1920); [lia|].
  unfold meta_write in Ha. cbn [h_meta with_meta h_metadata] in Ha. rewrite nth_error_list_upd_same in Ha by (apply nth_error_Some; congruence).
  cbn [fill m_offset] in Ha. rewrite Z.add_0_r in Ha. destruct (Z.gtb_spec (meta_end live + zlen v) METADATA_BYTES); [discriminate|]. injection Ha as <-.
  destruct (table_upd live m h (em_table _ _ E) ltac:(lia)) as [Hz _]. rewrite Hm in Hz. injection Hz as ->.
  pose proof (exact_append h live id ref (zlen v) v E ltac:(lia) ltac:(lia) ltac:(lia) (meta_end_mod live)) as Q.
  replace (zero_pad (zlen v) v) with v in Q by (unfold zero_pad; rewrite Z.sub_diag; now rewrite app_nil_r). exact Q.
Qed.
Lemma exact_add_transport h live part a b h' : 0 <= part < 2^32 -> hm h live -> exact_meta h live -> (length live <= 30)%nat ->
  add_transport_meta h part a b = (h', Ok tt) -> exists live', exact_meta h' live' /\ metas_are (h_meta h') (h_metadata h') live' /\ same_but_meta h h' /\ wf_header h'.
Proof.
  intros Hp M E Hl. unfold add_transport_meta. pose proof (hm_are _ _ M) as Ma.
  pose proof (add_meta_spec h live ID_BPAK_TRANSPORT part 32 ltac:(unfold ID_BPAK_TRANSPORT; lia) Ma) as A.
  destruct (find_index (fun e => (e_id e =? ID_BPAK_TRANSPORT) && (e_ref e =? part)) live) as [i|] eqn:Ef; [rewrite A; discriminate|].
  destruct (Nat.eqb_spec (length live) 32); [lia|]. destruct A as (m & Hm & Em & A). rewrite A. unfold METADATA_BYTES.
  destruct (Z.gtb_spec (meta_end live + 32) 1920); [discriminate|]. intros Ha.
  set (d := le 4 a ++ le 4 b) in *. assert (Ld : zlen d = 8) by (unfold d; rewrite zlen_app, !zlen_le; reflexivity).
  pose proof (metas_are_add _ _ _ ID_BPAK_TRANSPORT part 32 m ltac:(unfold ID_BPAK_TRANSPORT; lia) Ma Ef ltac:(lia) Hm ltac:(lia) ltac:(lia)) as M2.
  destruct (table_upd live m h (em_table _ _ E) ltac:(lia)) as [Hz _]. rewrite Hm in Hz. injection Hz as ->.
  pose proof (meta_end_nonneg live) as Hme. pose proof Ma as (X1 & X2 & _).
  assert (Ls : zlen (slice (meta_end live) 32 (h_metadata h)) = 32) by (apply zlen_slice_in; lia).
  pose proof (metas_are_write _ _ live ID_BPAK_TRANSPORT part _ [] 0 d M2 ltac:(lia) ltac:(lia)) as M3. rewrite Z.add_0_r in M3.
  unfold meta_write in Ha. cbn [h_meta with_meta h_metadata] in Ha. rewrite nth_error_list_upd_same in Ha by (apply nth_error_Some; congruence).
  cbn [fill m_offset] in Ha. rewrite Z.add_0_r in Ha. destruct (Z.gtb_spec (meta_end live + zlen d) METADATA_BYTES) as [?|_]; [discriminate|]. injection Ha as <-.
  pose proof (exact_append h live ID_BPAK_TRANSPORT part 32 d E ltac:(lia) ltac:(lia) ltac:(lia) (meta_end_mod live)) as Q.
  eexists. split; [exact Q|]. split; [|split; [unfold same_but_meta; destruct h; reflexivity|]].
  2: { pose proof (hm_wf _ _ M) as W. apply wf_with_metas; auto.
    - rewrite length_list_upd. exact X1.
    - apply Forall_list_upd; [apply (wf_metas h W)|].
      destruct (wf_metas h W) as [_ Wm]. rewrite Forall_forall in Wm. specialize (Wm _ (nth_error_In _ _ Hm)).
      destruct Wm as (_ & _ & _ & _ & W5 & W6). unfold wf_meta, fill. cbn [m_id m_size m_offset m_ref m_pad].
      unfold ID_BPAK_TRANSPORT. repeat split; auto; lia.
    - rewrite zlen_splice; lia.
    - apply bytes_ok_splice; [unfold d; apply bytes_ok_app; split; apply bytes_ok_le|apply (wf_metadata h W)]. }
  cbn [h_meta h_metadata with_metadata with_meta]. 
  replace (zero_pad 32 d) with (splice 0 d (slice (meta_end live) 32 (h_metadata h))); [exact M3|].
  rewrite (em_values _ _ E). unfold zero_pad at 1. rewrite slice_app_r by (rewrite zlen_meta_values; lia). rewrite zlen_meta_values, Z.sub_diag.
  rewrite slice_zeros by lia. unfold splice, zero_pad. rewrite ztake_0, Z.add_0_l, zdrop_zeros by lia. reflexivity.
Qed.
