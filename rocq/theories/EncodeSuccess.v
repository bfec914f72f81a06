(* EncodeSuccess.v -- when encoding succeeds *)
From Verif Require Import Base BaseLemmas HeaderModel HeaderSpec CodecProofs PartProofs CrcModel HashModel MerkleSpec VerifyModel VerifySpec
  PkgSpec PkgProofs BspatchModel BspatchSpec BspatchProofs BsdiffModel BsdiffProofs BsdiffSafe HsModel HsPatchModel LzModel LzSpec TransportModel TransportSpec TransportFile TransportLay TransportEncode TransportMain EncodeSpec.

Lemma bsdiff_none_at o n sa f k out off : 0 <= off -> bsdiff_none o n sa [] 0 = Ok (f, k) ->
  exists x, bsdiff_none o n sa out off = Ok (fwrite_at out off x, k) /\ zlen x = k.
Proof.
  intros Ho E. unfold bsdiff_none in *. destruct (bsdiff_chunks o n sa) as [l|e| |]; try discriminate. cbn [bind] in *.
  rewrite write_all_concat in * by lia. injection E as _ E. exists (concat l). rewrite Z.add_0_r, Z.add_0_l in *. split; [|exact E]. now rewrite <- E.
Qed.
Lemma bsdiff_hs_at o n sa f k out off : 0 <= off -> bsdiff_hs o n sa [] 0 = Ok (f, k) ->
  exists x, bsdiff_hs o n sa out off = Ok (fwrite_at out off x, k) /\ zlen x = k.
Proof.
  intros Ho E. unfold bsdiff_hs in *. destruct (bsdiff_chunks o n sa) as [l|e| |]; try discriminate. cbn [bind] in *.
  destruct (hsc_writes e_reset l) as [[e w]|x| |]; try discriminate. cbn [bind] in *. destruct (hsc_final 800 e) as [[e2 w2]|x| |]; try discriminate.
  cbn [bind] in *. rewrite write_all_concat in * by lia. injection E as _ E. exists (concat (w ++ w2)). rewrite Z.add_0_r, Z.add_0_l in *. split; [|exact E]. now rewrite <- E.
Qed.
Lemma bsdiff_lz_at L o n sa f k out off : 0 <= off -> bsdiff_lz L o n sa [] 0 = Ok (f, k) ->
  exists x, bsdiff_lz L o n sa out off = Ok (fwrite_at out off x, k) /\ zlen x = k.
Proof.
  intros Ho E. unfold bsdiff_lz in *. destruct (bsdiff_chunks o n sa) as [l|e| |]; try discriminate. cbn [bind] in *.
  destruct (lzc_writes L (lz_init L) l) as [[e w]|x| |]; try discriminate. cbn [bind] in *. destruct (lzc_final L e) as [w2|x| |]; try discriminate.
  cbn [bind] in *. rewrite write_all_concat in * by lia. injection E as _ E. exists (concat (w ++ w2)). rewrite Z.add_0_r, Z.add_0_l in *. split; [|exact E]. now rewrite <- E.
Qed.
Definition mode_of (s : setting) : cmode := match s with PatchHs => MHs | PatchLz => MLz | _ => MNone end.
Section B.
Variable bld : build.
Lemma bsdiff_succeeds sais s target toff tlen origin ooff olen out woff sa :
  patched s -> (s = PatchLz -> b_lzma bld = true) -> 0 < zlen target -> 0 < zlen origin ->
  0 <= toff -> toff + tlen <= zlen target -> 0 <= ooff -> ooff + olen <= zlen origin -> 0 <= woff ->
  sais (slice ooff olen origin) = Some sa -> makes_patch (b_lib bld) s (slice ooff olen origin) (slice toff tlen target) sa ->
  exists x, transport_bsdiff bld sais target toff tlen origin ooff olen out woff (mode_of s) = (fwrite_at out woff x, Ok (zlen x)) /\ zlen x <= 2^55.
Proof.
  intros P Lz T0 O0 T1 T2 O1 O2 W Sa (f & k & E & K). unfold transport_bsdiff.
  destruct (Z.eqb_spec (zlen target) 0); [lia|]. destruct (Z.eqb_spec (zlen origin) 0); [lia|].
  replace ((toff <? 0) || (toff + tlen >? zlen target) || (ooff <? 0) || (ooff + olen >? zlen origin)) with false
    by (symmetry; rewrite !orb_false_iff, Z.gtb_ltb, Z.gtb_ltb, !Z.ltb_ge; lia).
  rewrite Sa. destruct P as [->|[->| ->]]; cbn [mode_of] in *.
  - destruct (bsdiff_none_at _ _ _ _ _ out woff W E) as (x & -> & Lx). exists x. rewrite Lx. auto.
  - destruct (bsdiff_hs_at _ _ _ _ _ out woff W E) as (x & -> & Lx). exists x. rewrite Lx. auto.
  - rewrite (Lz eq_refl). cbn [negb]. destruct (bsdiff_lz_at _ _ _ _ _ _ out woff W E) as (x & -> & Lx). exists x. rewrite Lx. auto.
Qed.
Definition stored_part (ip : parth) (x : bytes) : parth := mkPart (p_id ip) (p_size ip) (p_offset ip) (zlen x) (p_pad_bytes ip) (Z.setbit (p_flags ip) 1) (p_pad ip).
Definition enc_alg (s : setting) : Z := match s with Patch => ID_BSDIFF_NO_COMP | PatchHs => ID_BSDIFF | PatchLz => ID_BSDIFF_LZMA | _ => ID_REMOVE_DATA end.
Lemma encode_step_succeeds sais ih H oh (es1 cs1 : entries) ip d es2 out q eo s :
  zlen H = 4096 -> lay ih (es1 ++ (ip, d) :: es2) -> lay oh (cs1 ++ (ip, d) :: es2) ->
  4096 + zlen (concat (map snd (es1 ++ (ip, d) :: es2))) < 2^62 -> 4096 + zlen (concat (map snd cs1)) < 2^62 ->
  Z.testbit (p_flags ip) 1 = false -> holds q eo -> zlen (pk_file q) < 2^62 -> (exists o, In o eo /\ p_id (fst o) = p_id ip) -> s <> AsIs ->
  (patched s -> forall o, In o eo -> p_id (fst o) = p_id ip -> exists sa, sais (snd o) = Some sa /\ makes_patch (b_lib bld) s (snd o) d sa) ->
  (s = PatchLz -> b_lzma bld = true) ->
  exists x, transport_encode_part bld sais (enc_alg s) (p_id ip) ih (H ++ concat (map snd (es1 ++ (ip, d) :: es2))) oh out (Some q) =
    (set_part oh (length cs1) (stored_part ip x), fwrite_at out (4096 + zlen (concat (map snd cs1))) x, Ok tt) /\ zlen x <= 2^55.
Proof.
  intros L Li Lo Bi Bo Pl Hq Bq (o & Ho & Eid) Ns Mk Lz. pose proof Bi as Bi'. rewrite zlen_split in Bi. cbn [snd] in Bi.
  pose proof (zlen_nonneg (concat (map snd es1))). pose proof (zlen_nonneg (concat (map snd cs1))).
  pose proof (zlen_nonneg (concat (map snd es2))). pose proof (zlen_nonneg d).
  destruct (lay_get _ _ _ _ _ Li) as [G N]. destruct (lay_get _ _ _ _ _ Lo) as [Go No].
  pose proof (lay_bound _ _ _ _ Li) as S. cbn [fst snd] in S.
  unfold transport_encode_part. rewrite G, Go. cbn [bind]. rewrite N, No.
  pose proof Ho as Ho'. apply in_split in Ho as (a & b & Eeo). destruct o as [gp od]. cbn [fst] in *. rewrite Eeo in Hq.
  destruct (get_part_at _ _ _ _ _ Hq) as [Gq Nq]. rewrite <- Eid, Gq. cbn [bind]. rewrite Nq. rewrite has_flag_transport, Pl.
  destruct (entry_wf _ _ (gp, od) Hq ltac:(apply in_or_app; right; left; reflexivity)) as (Wg & Sg & Bg). cbn [fst snd] in *.
  pose proof (part_offset_at _ _ _ _ _ Hq) as PO.
  pose proof (zlen_nonneg (concat (map snd a))) as Na. pose proof (zlen_nonneg (concat (map snd b))) as Nb. pose proof (zlen_nonneg od) as Nod.
  rewrite (lay_offset _ _ _ _ _ ip Li) by (auto; lia). rewrite (lay_offset _ _ _ _ _ ip Lo) by (auto; lia).
  pose proof (ho_file _ _ Hq) as Fq. pose proof (zlen_enc_header _ (ho_wf _ _ Hq)) as Lq.
  assert (Lf : zlen (pk_file q) = 4096 + zlen (concat (map snd a)) + zlen od + zlen (concat (map snd b))).
  { rewrite Fq, zlen_app, Lq, zlen_split. cbn [snd]. lia. }
  rewrite PO. destruct (Z.ltb_spec (4096 + zlen (concat (map snd a))) 0); [lia|].
  destruct (Z.ltb_spec (4096 + zlen (concat (map snd es1))) 0); [lia|].
  destruct (Z.ltb_spec (4096 + zlen (concat (map snd cs1))) 0); [lia|].
  assert (Diff : patched s -> (enc_alg s =? ID_BSDIFF) || (enc_alg s =? ID_BSDIFF_NO_COMP) || (enc_alg s =? ID_BSDIFF_LZMA) = true /\
    (if enc_alg s =? ID_BSDIFF then MHs else if enc_alg s =? ID_BSDIFF_LZMA then MLz else MNone) = mode_of s) by (intros [->|[->| ->]]; split; reflexivity).
  destruct s.
  - now elim Ns.
  - destruct (Diff (or_introl eq_refl)) as [-> ->].
    destruct (Mk (or_introl eq_refl) _ Ho' Eid) as (sa & Sa & Mp). cbn [snd] in *.
    rewrite (part_size_stored gp) by (auto; lia). rewrite <- Sg, S.
    assert (So : slice (4096 + zlen (concat (map snd a))) (zlen od) (pk_file q) = od).
    { pose proof (slice_part (enc_header (pk_header q)) a (gp, od) b [] Lq) as P. cbn [snd] in P. rewrite app_nil_r, <- Fq in P. exact P. }
    pose proof (slice_part H es1 (ip, d) es2 [] L) as Sn. cbn [snd] in Sn. rewrite app_nil_r in Sn.
    edestruct (bsdiff_succeeds sais Patch (H ++ concat (map snd (es1 ++ (ip, d) :: es2))) (4096 + zlen (concat (map snd es1))) (zlen d) (pk_file q)
      (4096 + zlen (concat (map snd a))) (zlen od) out (4096 + zlen (concat (map snd cs1))) sa (or_introl eq_refl) Lz) as (x & Ex & Kx);
      try (rewrite zlen_app, zlen_split; cbn [snd]); try lia; rewrite ?So, ?Sn; auto.
    rewrite Ex. pose proof (zlen_nonneg x). destruct (Z.ltb_spec (zlen x) 0); [lia|]. exists x. auto.
  - destruct (Diff (or_intror (or_introl eq_refl))) as [-> ->].
    destruct (Mk (or_intror (or_introl eq_refl)) _ Ho' Eid) as (sa & Sa & Mp). cbn [snd] in *.
    rewrite (part_size_stored gp) by (auto; lia). rewrite <- Sg, S.
    assert (So : slice (4096 + zlen (concat (map snd a))) (zlen od) (pk_file q) = od).
    { pose proof (slice_part (enc_header (pk_header q)) a (gp, od) b [] Lq) as P. cbn [snd] in P. rewrite app_nil_r, <- Fq in P. exact P. }
    pose proof (slice_part H es1 (ip, d) es2 [] L) as Sn. cbn [snd] in Sn. rewrite app_nil_r in Sn.
    edestruct (bsdiff_succeeds sais PatchHs (H ++ concat (map snd (es1 ++ (ip, d) :: es2))) (4096 + zlen (concat (map snd es1))) (zlen d) (pk_file q)
      (4096 + zlen (concat (map snd a))) (zlen od) out (4096 + zlen (concat (map snd cs1))) sa (or_intror (or_introl eq_refl)) Lz) as (x & Ex & Kx);
      try (rewrite zlen_app, zlen_split; cbn [snd]); try lia; rewrite ?So, ?Sn; auto.
    rewrite Ex. pose proof (zlen_nonneg x). destruct (Z.ltb_spec (zlen x) 0); [lia|]. exists x. auto.
  - destruct (Diff (or_intror (or_intror eq_refl))) as [-> ->].
    destruct (Mk (or_intror (or_intror eq_refl)) _ Ho' Eid) as (sa & Sa & Mp). cbn [snd] in *.
    rewrite (part_size_stored gp) by (auto; lia). rewrite <- Sg, S.
    assert (So : slice (4096 + zlen (concat (map snd a))) (zlen od) (pk_file q) = od).
    { pose proof (slice_part (enc_header (pk_header q)) a (gp, od) b [] Lq) as P. cbn [snd] in P. rewrite app_nil_r, <- Fq in P. exact P. }
    pose proof (slice_part H es1 (ip, d) es2 [] L) as Sn. cbn [snd] in Sn. rewrite app_nil_r in Sn.
    edestruct (bsdiff_succeeds sais PatchLz (H ++ concat (map snd (es1 ++ (ip, d) :: es2))) (4096 + zlen (concat (map snd es1))) (zlen d) (pk_file q)
      (4096 + zlen (concat (map snd a))) (zlen od) out (4096 + zlen (concat (map snd cs1))) sa (or_intror (or_intror eq_refl)) Lz) as (x & Ex & Kx);
      try (rewrite zlen_app, zlen_split; cbn [snd]); try lia; rewrite ?So, ?Sn; auto.
    rewrite Ex. pose proof (zlen_nonneg x). destruct (Z.ltb_spec (zlen x) 0); [lia|]. exists x. auto.
  - exists []. cbn [enc_alg]. change ((ID_REMOVE_DATA =? ID_BSDIFF) || (ID_REMOVE_DATA =? ID_BSDIFF_NO_COMP) || (ID_REMOVE_DATA =? ID_BSDIFF_LZMA)) with false.
    change (ID_REMOVE_DATA =? ID_REMOVE_DATA) with true. cbn match. change (0 <? 0) with false. cbn match.
    unfold stored_part. change (zlen (@nil Z)) with 0. rewrite fwrite_at_nil. split; [reflexivity|lia].
Qed.

Lemma zlen_fwrite_le f o d : 0 <= o -> zlen (fwrite_at f o d) <= Z.max (zlen f) (o + zlen d).
Proof.
  intros Ho. pose proof (zlen_nonneg f). pose proof (zlen_nonneg d). unfold fwrite_at.
  destruct (Z.eqb_spec (zlen d) 0) as [E|E]; [lia|].
  destruct (Z.leb_spec o (zlen f)).
  - unfold splice. rewrite !zlen_app, zlen_ztake, zlen_zdrop. lia.
  - rewrite !zlen_app, zlen_zeros. lia.
Qed.
Lemma encode_loop_succeeds sais ih H (st : Z -> setting) q eo f0 (es : entries) :
  zlen H = 4096 -> lay ih es -> wf_header ih -> 4096 + zlen (concat (map snd es)) < 2^61 -> plain es ->
  holds q eo -> zlen (pk_file q) < 2^62 -> (forall e, In e es -> exists o, In o eo /\ p_id (fst o) = p_id (fst e)) ->
  Forall (fun e : parth * bytes => has_setting ih (p_id (fst e)) (st (p_id (fst e)))) es -> makes_patches bld sais eo es st ->
  forall (es2 es1 cs1 : entries) k oh out, es = es1 ++ es2 -> lay oh (cs1 ++ es2) -> same_besides_table ih oh ->
  length cs1 = length es1 -> zlen (concat (map snd cs1)) <= zlen (concat (map snd es1)) + 2^55 * Z.of_nat (length cs1) ->
  out = fwrite_at f0 4096 (concat (map snd cs1)) ->
  exists oh' (cs : entries), encode_loop bld sais ih (H ++ concat (map snd es)) (Some q) (map fst es2 ++ repeat zero_part k) oh out =
      (oh', fwrite_at f0 4096 (concat (map snd cs)), Ok tt) /\ lay oh' cs /\ same_besides_table ih oh' /\ 4096 + zlen (concat (map snd cs)) < 2^62.
Proof.
  intros L Li W Bi Pl Hq Bq Og St Mk. assert (Bi2 : 4096 + zlen (concat (map snd es)) < 2^62) by lia. induction es2 as [|e es2 IH]; intros es1 cs1 k oh out Ees Lo Sb Len Bd Eo.
  { exists oh, cs1. rewrite app_nil_r in *. subst es1. split; [destruct k; cbn [repeat map app encode_loop zero_part p_id]; now rewrite Eo|]. split; [exact Lo|]. split; [exact Sb|].
    pose proof (la_count _ _ Li). lia. }
  assert (Hin : In e es) by (rewrite Ees; apply in_or_app; right; left; reflexivity).
  unfold plain in Pl. rewrite Forall_forall in Pl, St. specialize (Pl _ Hin). pose proof (St _ Hin) as Se.
  assert (B1 : 4096 + zlen (concat (map snd cs1)) < 2^62 /\ zlen (concat (map snd es1)) + zlen (snd e) <= zlen (concat (map snd es))).
  { pose proof (la_count _ _ Li) as C. rewrite Ees, app_length in C. cbn [length] in C. rewrite Ees, zlen_split in Bi |- *.
    pose proof (zlen_nonneg (snd e)). pose proof (zlen_nonneg (concat (map snd es2))). lia. }
  destruct B1 as [B1 B2].
  assert (Key : exists c : parth * bytes, p_id (fst c) = p_id (fst e) /\ part_size (fst c) = zlen (snd c) /\ zlen (snd c) <= zlen (snd e) + 2^55 /\
     encode_loop bld sais ih (H ++ concat (map snd es)) (Some q) (map fst (e :: es2) ++ repeat zero_part k) oh out =
     encode_loop bld sais ih (H ++ concat (map snd es)) (Some q) (map fst es2 ++ repeat zero_part k) (set_part oh (length cs1) (fst c))
       (fwrite_at out (4096 + zlen (concat (map snd cs1))) (snd c))).
  { cbn [map app encode_loop]. destruct (Z.eqb_spec (p_id (fst e)) 0) as [Z0|_].
    { exfalso. pose proof (la_nonzero _ _ Li) as N. rewrite Forall_forall in N. exact (N _ Hin Z0). }
    assert (Go : forall dec, st (p_id (fst e)) <> AsIs -> 0 <= enc_alg (st (p_id (fst e))) < 2^32 -> 0 <= dec < 2^32 ->
      meta_starts ih ID_BPAK_TRANSPORT (p_id (fst e)) (le 4 (enc_alg (st (p_id (fst e)))) ++ le 4 dec) ->
      exists x, transport_encode_part bld sais (enc_alg (st (p_id (fst e)))) (p_id (fst e)) ih (H ++ concat (map snd es)) oh out (Some q) =
        (set_part oh (length cs1) (stored_part (fst e) x), fwrite_at out (4096 + zlen (concat (map snd cs1))) x, Ok tt) /\ zlen x <= 2^55 /\
        match get_meta ih ID_BPAK_TRANSPORT (p_id (fst e)) with
        | Ok m => match meta_read ih m 0 4 with Ok b => unle b = enc_alg (st (p_id (fst e))) | _ => False end
        | _ => False end).
    { intros dec Ns He Hd Ms. destruct (setting_get _ _ _ _ W He Hd Ms) as (m & b1 & b2 & Gm & M1 & U1 & _).
      destruct e as [ip d]. cbn [fst snd] in *. rewrite Ees.
      destruct (encode_step_succeeds sais ih H oh es1 cs1 ip d es2 out q eo (st (p_id ip))) as (x & Ex & Lx); auto; try (rewrite <- Ees; auto; fail).
      - exact (Og _ Hin).
      - intros Pt o Ho Eo'. exact (proj2 (Mk _ _ Hin Ho Eo' Pt)).
      - intros Elz. destruct (Og _ Hin) as (o & Ho & Eid). apply (Mk _ _ Hin Ho Eid); [right; right; exact Elz|exact Elz].
      - exists x. split; [exact Ex|]. split; [exact Lx|]. rewrite Gm, M1. exact U1. }
    destruct (st (p_id (fst e))) eqn:Est; cbn [has_setting] in Se.
    - exists e. split; [reflexivity|]. split; [exact (lay_bound _ _ _ _ Lo)|]. split; [lia|].
      assert (Zs : set_part oh (length cs1) (fst e) = oh).
      { destruct e as [r d]. cbn [fst]. destruct (lay_upd _ _ _ _ _ r d Lo eq_refl) as [_ U].
        { pose proof (lay_bound _ _ _ _ Lo) as S. exact S. }
        transitivity (with_parts oh (h_parts oh)); [|apply with_parts_id]. rewrite U. f_equal. symmetry. exact (la_table _ _ Lo). }
      rewrite Zs. pose proof (meta_none _ _ _ Se) as Gm. change bpak_transport with ID_BPAK_TRANSPORT in Gm. rewrite Gm.
      rewrite Ees, (copy_step ih oh H es1 cs1 e es2); auto; try lia; try (rewrite <- Ees; auto; fail).
    - destruct (Go 0x75622592) as (x & Ex & Lx & Gm); cbn [enc_alg]; auto; try discriminate; try (unfold ID_BSDIFF_NO_COMP; lia).
      exists (stored_part (fst e) x, x). cbn [fst snd]. split; [reflexivity|]. split; [eapply travels_size; reflexivity|].
      split; [pose proof (zlen_nonneg (snd e)); lia|].
      destruct (get_meta ih ID_BPAK_TRANSPORT (p_id (fst e))) as [m|? | |]; try contradiction.
      destruct (meta_read ih m 0 4) as [b|? | |]; try contradiction. rewrite Gm, Ex. reflexivity.
    - destruct (Go 0xb5964388) as (x & Ex & Lx & Gm); cbn [enc_alg]; auto; try discriminate; try (unfold ID_BSDIFF; lia).
      exists (stored_part (fst e) x, x). cbn [fst snd]. split; [reflexivity|]. split; [eapply travels_size; reflexivity|].
      split; [pose proof (zlen_nonneg (snd e)); lia|].
      destruct (get_meta ih ID_BPAK_TRANSPORT (p_id (fst e))) as [m|? | |]; try contradiction.
      destruct (meta_read ih m 0 4) as [b|? | |]; try contradiction. rewrite Gm, Ex. reflexivity.
    - destruct (Go 0x933a9893) as (x & Ex & Lx & Gm); cbn [enc_alg]; auto; try discriminate; try (unfold ID_BSDIFF_LZMA; lia).
      exists (stored_part (fst e) x, x). cbn [fst snd]. split; [reflexivity|]. split; [eapply travels_size; reflexivity|].
      split; [pose proof (zlen_nonneg (snd e)); lia|].
      destruct (get_meta ih ID_BPAK_TRANSPORT (p_id (fst e))) as [m|? | |]; try contradiction.
      destruct (meta_read ih m 0 4) as [b|? | |]; try contradiction. rewrite Gm, Ex. reflexivity.
    - destruct (Go 0xb5bcc58f) as (x & Ex & Lx & Gm); cbn [enc_alg]; auto; try discriminate; try (unfold ID_REMOVE_DATA; lia).
      exists (stored_part (fst e) x, x). cbn [fst snd]. split; [reflexivity|]. split; [eapply travels_size; reflexivity|].
      split; [pose proof (zlen_nonneg (snd e)); lia|].
      destruct (get_meta ih ID_BPAK_TRANSPORT (p_id (fst e))) as [m|? | |]; try contradiction.
      destruct (meta_read ih m 0 4) as [b|? | |]; try contradiction. rewrite Gm, Ex. reflexivity. }
  destruct Key as (c & Si & Ss & Sz & R). rewrite R. destruct e as [r d], c as [r' d']. cbn [fst snd] in *.
  destruct (lay_upd _ _ _ _ _ r' d' Lo Si Ss) as [Lo1 _]. rewrite app_cons in Lo1.
  apply (IH (es1 ++ [(r, d)]) (cs1 ++ [(r', d')]) k); auto.
  - now rewrite Ees, app_cons.
  - now apply same_set.
  - rewrite !app_length. cbn [length]. lia.
  - rewrite !map_app, !concat_app, !zlen_app, app_length. cbn [map concat snd length]. rewrite !app_nil_r. lia.
  - rewrite Eo, map_app, concat_app. cbn [map concat snd]. rewrite app_nil_r. rewrite fwrite_at_app by lia. reflexivity.
Qed.
Theorem encode_succeeds sha sais p es st q eo oh0 f0 :
  transportable sha p es st -> origin_for q eo p es -> zlen (pk_file p) < 2^61 -> makes_patches bld sais eo es st ->
  exists pe, transport_encode bld sais p oh0 f0 (Some q) = (pe, Ok tt) /\ zlen (pk_file pe) < Z.max (zlen f0 + 1) (2^62).
Proof.
  intros T O Bp Mk. pose proof (tp_holds _ _ _ _ T) as Hp. pose proof (ho_wf _ _ Hp) as W. pose proof (zlen_enc_header _ W) as LH. pose proof (ho_file _ _ Hp) as Fp.
  pose proof (holds_lay _ _ Hp) as Lp. destruct O as [Hq Bq (o & u & U1 & U2) Og]. unfold transport_encode.
  rewrite (check_same_uuid_exact _ _ _ _ _ _ U1 U2), bytes_eqb_refl.
  rewrite (la_table _ _ Lp), Fp.
  assert (Bi : 4096 + zlen (concat (map snd es)) < 2^61) by (rewrite <- LH, <- zlen_app, <- Fp; exact Bp).
  destruct (encode_loop_succeeds sais (pk_header p) (enc_header (pk_header p)) st q eo f0 es LH Lp W Bi (tp_plain _ _ _ _ T) Hq Bq Og (tp_settings _ _ _ _ T) Mk
    es [] [] (32 - length es) (pk_header p) f0 eq_refl Lp) as (oh & cs & E & Lo & Sb & Bo).
  - unfold same_besides_table. now rewrite with_parts_id.
  - reflexivity.
  - cbn [map concat length]. lia.
  - reflexivity.
  - rewrite E. eexists. split; [reflexivity|]. cbn [pk_file].
    pose proof (zlen_fwrite_le f0 4096 (concat (map snd cs)) ltac:(lia)).
    pose proof (zlen_fwrite_le (fwrite_at f0 4096 (concat (map snd cs))) 0 (enc_header oh) ltac:(lia)).
    pose proof (zlen_enc_same (pk_header p) oh cs W Sb Lo). pose proof (zlen_nonneg (concat (map snd cs))). lia.
Qed.
End B.
