(* TransportEncode.v -- what the encoder writes *)
From Verif Require Import Base BaseLemmas HeaderModel HeaderSpec CodecProofs PartProofs CrcModel HashModel MerkleSpec VerifyModel VerifySpec
  PkgSpec PkgProofs BspatchModel BspatchProofs BsdiffModel BsdiffProofs BsdiffSafe HsModel HsPatchModel HsPatchFinal LzModel LzSpec LzFinal
  TransportModel TransportSpec TransportFile TransportLay.

(* the patch [x], fed in non-empty pieces, makes [n] *)
Definition plain_patch_makes (qf : bytes) (ooff : Z) (x n : bytes) : Prop :=
  forall woff f l, 0 <= woff -> concat l = x -> Forall (fun b : bytes => b <> []) l ->
    exists c1, bspatch_chunks qf ooff woff PATCH_BUF bs_init f l = (c1, fwrite_at f woff n, Ok tt) /\ bspatch_final c1 = Ok (zlen n).
Definition hs_patch_makes (qf : bytes) (ooff : Z) (x n : bytes) : Prop :=
  forall woff f l, 0 <= woff -> concat l = x -> Forall (fun b : bytes => b <> []) l ->
    exists c1, hsp_chunks qf ooff woff PATCH_BUF (zlen x) hsp_init f l = (c1, fwrite_at f woff n, Ok tt) /\
      bspatch_final (hp_bs c1) = Ok (zlen n).
Definition lz_patch_makes (L : lzstream) (qf : bytes) (ooff : Z) (x n : bytes) : Prop :=
  forall woff f l, 0 <= woff -> concat l = x -> Forall (fun b : bytes => b <> []) l ->
    exists h1 f1 h2, lzp_chunks L qf ooff woff PATCH_BUF (lzp_init L) f l = (h1, f1, Ok tt) /\
      lzp_final L qf ooff woff PATCH_BUF h1 f1 = (h2, fwrite_at f woff n, Ok (zlen n)).
Section B.
Variable bld : build.
(* part [e] is stored as [c] *)
Definition coded (origin : option pkg) (s : setting) (e c : parth * bytes) : Prop :=
  match s with
  | AsIs => c = e
  | Tree => travels (fst e) (fst c) 0 /\ snd c = []
  | Patch => travels (fst e) (fst c) (zlen (snd c)) /\
      exists q, origin = Some q /\ plain_patch_makes (pk_file q) (data_pos (pk_header q) (fst e)) (snd c) (snd e)
  | PatchHs => travels (fst e) (fst c) (zlen (snd c)) /\
      exists q, origin = Some q /\ hs_patch_makes (pk_file q) (data_pos (pk_header q) (fst e)) (snd c) (snd e)
  | PatchLz => travels (fst e) (fst c) (zlen (snd c)) /\
      exists q, origin = Some q /\ b_lzma bld = true /\
        lz_patch_makes (lz_dec (b_lib bld)) (pk_file q) (data_pos (pk_header q) (fst e)) (snd c) (snd e)
  end.

(* ---- files only grow ---- *)
Lemma write_all_grows : forall l f off pos, 0 <= off -> 0 <= pos -> zlen f <= zlen (fst (write_all f off pos l)).
Proof.
  induction l as [|b l IH]; intros f off pos Ho Hp; cbn [write_all fst]; [lia|].
  pose proof (zlen_nonneg b). destruct (zlen_fwrite f (off + pos) b) as [G _]; [lia|].
  specialize (IH (fwrite_at f (off + pos) b) off (pos + zlen b)). lia.
Qed.
Lemma tcopy_grows inp : forall fuel rd out wr left, 0 <= wr -> zlen out <= zlen (fst (tcopy_loop fuel inp rd out wr left)).
Proof.
  induction fuel as [|k IH]; intros rd out wr left Hw; cbn [tcopy_loop].
  - destruct (left =? 0); cbn [fst]; lia.
  - destruct (left =? 0); [cbn [fst]; lia|]. set (chunk := if left >? 1024 then 1024 else left).
    destruct (Z.eqb_spec (zlen (fread_at inp rd chunk)) chunk) as [E|E]; [|cbn [fst]; lia].
    pose proof (zlen_nonneg (fread_at inp rd chunk)).
    destruct (zlen_fwrite out wr (fread_at inp rd chunk)) as [G _]; [lia|].
    specialize (IH (rd + chunk) (fwrite_at out wr (fread_at inp rd chunk)) (wr + chunk) (left - chunk)). lia.
Qed.
Lemma copy_grows ih oh id inp out : zlen out <= zlen (fst (transport_copy ih oh id inp out)).
Proof.
  unfold transport_copy. destruct (get_part ih id) as [i|e| |]; cbn [fst]; try lia.
  destruct (nth_error (h_parts ih) i) as [p|]; cbn [fst]; try lia.
  destruct (part_offset ih p <? 0); cbn [fst]; try lia. destruct (Z.ltb_spec (part_offset oh p) 0); cbn [fst]; try lia.
  apply tcopy_grows. lia.
Qed.
Lemma bsdiff_grows sais target toff tlen origin ooff olen out woff m : 0 <= woff ->
  zlen out <= zlen (fst (transport_bsdiff bld sais target toff tlen origin ooff olen out woff m)).
Proof.
  intros Hw. unfold transport_bsdiff. destruct (zlen target =? 0); cbn [fst]; try lia. destruct (zlen origin =? 0); cbn [fst]; try lia.
  destruct (match m with MLz => _ | _ => _ end); cbn [fst]; try lia.
  destruct (_ || _); cbn [fst]; try lia. destruct (sais _) as [sa|]; cbn [fst]; try lia.
  set (o := slice ooff olen origin). set (n := slice toff tlen target).
  set (D := match m with MNone => bsdiff_none | MHs => bsdiff_hs | MLz => bsdiff_lz (lz_enc (b_lib bld)) end).
  assert (G : forall r, D o n sa out woff = Ok r -> zlen out <= zlen (fst r)).
  { intros r. unfold D. destruct m; unfold bsdiff_hs, bsdiff_none, bsdiff_lz; destruct (bsdiff_chunks o n sa) as [l|e| |]; cbn [bind]; try discriminate.
    - intros E. injection E as <-. apply write_all_grows; lia.
    - destruct (hsc_writes e_reset l) as [[e w]|e| |]; cbn [bind]; try discriminate.
      destruct (hsc_final 800 e) as [[e2 w2]|e2| |]; cbn [bind]; try discriminate.
      intros E. injection E as <-. apply write_all_grows; lia.
    - destruct (lzc_writes _ _ l) as [[e w]|e| |]; cbn [bind]; try discriminate.
      destruct (lzc_final _ e) as [w2|e2| |]; cbn [bind]; try discriminate.
      intros E. injection E as <-. apply write_all_grows; lia. }
  destruct (D o n sa out woff) as [[out1 k]|e| |]; cbn [fst]; try lia.
  exact (G _ eq_refl).
Qed.
Lemma encode_part_grows sais alg id ih inp oh out origin : zlen out <= zlen (snd (fst (transport_encode_part bld sais alg id ih inp oh out origin))).
Proof.
  unfold transport_encode_part. match goal with |- context [match ?x with Ok _ => _ | Err _ => _ | UB => _ | Stuck => _ end] => generalize x end.
  intros [[[[ip j] op] gp]|e| |]; cbn [fst snd]; try lia.
  destruct (has_flag op FLAG_TRANSPORT); cbn [fst snd]; [lia|].
  destruct (match origin with Some q => _ | None => _ end); cbn [fst snd]; [lia|].
  destruct (part_offset ih ip <? 0); cbn [fst snd]; [lia|]. destruct (Z.ltb_spec (part_offset oh op) 0); cbn [fst snd]; [lia|].
  destruct (_ || _).
  - destruct origin as [q|]; cbn [fst snd]; [|lia].
    pose proof (bsdiff_grows sais inp (part_offset ih ip) (part_size ip) (pk_file q) (part_offset (pk_header q) gp) (part_size gp) out
       (part_offset oh op) (if alg =? ID_BSDIFF then MHs else if alg =? ID_BSDIFF_LZMA then MLz else MNone) ltac:(lia)) as G.
    destruct (transport_bsdiff _ _ _ _ _ _ _ _ _ _ _) as [out1 [n|e| |]]; cbn [fst snd] in *; try lia.
    destruct (n <? 0); cbn [fst snd]; lia.
  - destruct (alg =? ID_REMOVE_DATA); cbn [fst snd]; [|lia]. change (0 <? 0) with false. cbn [fst snd]. lia.
Qed.
Lemma encode_grows sais ih inp origin : forall l oh out, zlen out <= zlen (snd (fst (encode_loop bld sais ih inp origin l oh out))).
Proof.
  induction l as [|ph r IH]; intros oh out; cbn [encode_loop]; [cbn [fst snd]; lia|].
  destruct (p_id ph =? 0); [cbn [fst snd]; lia|].
  set (x := match get_meta ih ID_BPAK_TRANSPORT (p_id ph) with Ok m => _ | _ => _ end).
  assert (G : zlen out <= zlen (snd (fst x))).
  { pose proof (copy_grows ih oh (p_id ph) inp out) as C. unfold x. destruct (get_meta ih ID_BPAK_TRANSPORT (p_id ph)) as [m|e| |].
    - destruct (meta_read ih m 0 4) as [b|e| |]; cbn [fst snd]; try lia. apply encode_part_grows.
    - destruct (transport_copy ih oh (p_id ph) inp out); exact C.
    - destruct (transport_copy ih oh (p_id ph) inp out); exact C.
    - destruct (transport_copy ih oh (p_id ph) inp out); exact C. }
  destruct x as [[oh1 out1] [u|e| |]]; cbn [fst snd] in *; auto. specialize (IH oh1 out1). lia.
Qed.

(* ---- one part ---- *)
Lemma lor_transport x : Z.lor x FLAG_TRANSPORT = Z.setbit x 1.
Proof. reflexivity. Qed.
Lemma travels_size p c n : travels p c n -> part_size c = n.
Proof.
  intros ->. unfold part_size. rewrite has_flag_transport. cbn [p_flags p_transport_size].
  now rewrite Z.setbit_eq by lia.
Qed.
Lemma travels_id p c n : travels p c n -> p_id c = p_id p.
Proof. now intros ->. Qed.
Lemma data_pos_id h p p' : p_id p = p_id p' -> data_pos h p = data_pos h p'.
Proof. intros E. unfold data_pos, part_offset. now rewrite E. Qed.
Lemma lay_bound h (a : entries) e b : lay h (a ++ e :: b) -> part_size (fst e) = zlen (snd e).
Proof. intros H. pose proof (la_sizes _ _ H) as S. apply Forall_app in S as [_ S]. now inversion S. Qed.
Lemma slice_part (H : bytes) (a : entries) (e : parth * bytes) b R : zlen H = 4096 ->
  slice (4096 + zlen (concat (map snd a))) (zlen (snd e)) (H ++ concat (map snd (a ++ e :: b)) ++ R) = snd e.
Proof.
  intros L. rewrite map_app, concat_app. cbn [map concat]. rewrite <- !app_assoc, app_assoc. apply slice_app_exact; auto.
  rewrite zlen_app. lia.
Qed.
Lemma zlen_split (a : entries) e b : zlen (concat (map snd (a ++ e :: b))) = zlen (concat (map snd a)) + zlen (snd e) + zlen (concat (map snd b)).
Proof. rewrite map_app, concat_app. cbn [map concat]. rewrite !zlen_app. lia. Qed.

Lemma copy_step ih oh H (es1 cs1 : entries) e es2 out : zlen H = 4096 ->
  lay ih (es1 ++ e :: es2) -> lay oh (cs1 ++ e :: es2) ->
  4096 + zlen (concat (map snd (es1 ++ e :: es2))) < 2^62 -> 4096 + zlen (concat (map snd cs1)) < 2^63 ->
  transport_copy ih oh (p_id (fst e)) (H ++ concat (map snd (es1 ++ e :: es2))) out =
    (fwrite_at out (4096 + zlen (concat (map snd cs1))) (snd e), Ok tt).
Proof.
  intros L Li Lo Bi Bo. destruct e as [q d]. cbn [fst snd]. rewrite zlen_split in Bi. cbn [snd] in Bi.
  pose proof (zlen_nonneg (concat (map snd es1))). pose proof (zlen_nonneg (concat (map snd cs1))).
  pose proof (zlen_nonneg (concat (map snd es2))). pose proof (zlen_nonneg d).
  destruct (lay_get _ _ _ _ _ Li) as [G N]. unfold transport_copy. rewrite G, N.
  rewrite (lay_offset _ _ _ _ _ q Li) by (auto; lia). rewrite (lay_offset _ _ _ _ _ q Lo) by (auto; lia).
  destruct (Z.ltb_spec (4096 + zlen (concat (map snd es1))) 0); [lia|].
  destruct (Z.ltb_spec (4096 + zlen (concat (map snd cs1))) 0); [lia|].
  pose proof (lay_bound _ _ _ _ Li) as S. cbn [fst snd] in S. rewrite S.
  rewrite tcopy_ok; try lia.
  - f_equal. pose proof (slice_part H es1 (q, d) es2 [] L) as P. cbn [snd] in P. rewrite app_nil_r in P. now rewrite P.
  - rewrite zlen_app, zlen_split. cbn [snd]. lia.
Qed.

Definition origin_has (origin : option pkg) (id : Z) : Prop :=
  match origin with
  | None => True
  | Some q => exists eo, holds q eo /\ zlen (pk_file q) < 2^62 /\ In id (map (fun e : parth * bytes => p_id (fst e)) eo)
  end.
(* the part can be differenced *)
Definition diffable (e : parth * bytes) : Prop :=
  bytes_ok (snd e).
Lemma encode_step (Hlz : b_lzma bld = true -> lz_good (b_lib bld)) sais ih H oh (es1 cs1 : entries) e es2 out origin s enc oh1 out1 :
  zlen H = 4096 -> lay ih (es1 ++ e :: es2) -> lay oh (cs1 ++ e :: es2) ->
  4096 + zlen (concat (map snd (es1 ++ e :: es2))) < 2^62 -> 4096 + zlen (concat (map snd cs1)) < 2^62 ->
  Z.testbit (p_flags (fst e)) 1 = false -> origin_has origin (p_id (fst e)) ->
  s <> AsIs -> (patched s -> diffable e) ->
  (s = Patch -> enc = ID_BSDIFF_NO_COMP) -> (s = PatchHs -> enc = ID_BSDIFF) -> (s = PatchLz -> enc = ID_BSDIFF_LZMA) -> (s = Tree -> enc = ID_REMOVE_DATA) ->
  transport_encode_part bld sais enc (p_id (fst e)) ih (H ++ concat (map snd (es1 ++ e :: es2))) oh out origin = (oh1, out1, Ok tt) ->
  exists c, coded origin s e c /\ oh1 = set_part oh (length cs1) (fst c) /\
    out1 = fwrite_at out (4096 + zlen (concat (map snd cs1))) (snd c).
Proof.
  intros L Li Lo Bi Bo Pl Og Ns Df Ep Eh El Et. destruct e as [ip d]. cbn [fst snd] in *. rewrite zlen_split in Bi. cbn [snd] in Bi.
  pose proof (zlen_nonneg (concat (map snd es1))). pose proof (zlen_nonneg (concat (map snd cs1))).
  pose proof (zlen_nonneg (concat (map snd es2))). pose proof (zlen_nonneg d).
  destruct (lay_get _ _ _ _ _ Li) as [G N]. destruct (lay_get _ _ _ _ _ Lo) as [Go No].
  pose proof (lay_bound _ _ _ _ Li) as S. cbn [fst snd] in S.
  unfold transport_encode_part. rewrite G, Go. cbn [bind]. rewrite N, No.
  assert (O : exists k gp, match origin with Some q => do k <- get_part (pk_header q) (p_id ip); Ok k | None => Ok 0%nat end = Ok k /\
     nth_error (match origin with Some q => h_parts (pk_header q) | None => [zero_part] end) k = Some gp /\
     match origin with None => True | Some q => exists a od b, holds q (a ++ (gp, od) :: b) /\ p_id gp = p_id ip /\ zlen (pk_file q) < 2^62 end).
  { destruct origin as [q|]; [|exists O, zero_part; auto]. destruct Og as (eo & Hq & Bq & Hin). apply in_map_iff in Hin as ([gp od] & Eid & Hin).
    cbn [fst] in Eid. apply in_split in Hin as (a & b & ->). destruct (get_part_at _ _ _ _ _ Hq) as [Gq Nq].
    exists (length a), gp. rewrite <- Eid, Gq. cbn [bind]. split; [reflexivity|]. split; [exact Nq|]. exists a, od, b. auto. }
  destruct O as (k & gp & Ek & Ng & Oq). rewrite Ek. cbn [bind]. rewrite Ng.
  rewrite has_flag_transport, Pl.
  rewrite (lay_offset _ _ _ _ _ ip Li) by (auto; lia). rewrite (lay_offset _ _ _ _ _ ip Lo) by (auto; lia).
  destruct (match origin with Some q => part_offset (pk_header q) gp <? 0 | None => false end) eqn:Eo1; [discriminate|].
  destruct (Z.ltb_spec (4096 + zlen (concat (map snd es1))) 0); [lia|].
  destruct (Z.ltb_spec (4096 + zlen (concat (map snd cs1))) 0); [lia|].
  destruct s; [now elim Ns| | | |].
  - (* Patch *)
    rewrite (Ep eq_refl). change ((ID_BSDIFF_NO_COMP =? ID_BSDIFF) || (ID_BSDIFF_NO_COMP =? ID_BSDIFF_NO_COMP) || (ID_BSDIFF_NO_COMP =? ID_BSDIFF_LZMA)) with true.
    cbn match. destruct origin as [q|]; [|discriminate]. change (ID_BSDIFF_NO_COMP =? ID_BSDIFF_LZMA) with false. change (ID_BSDIFF_NO_COMP =? ID_BSDIFF) with false.
    cbn match. destruct Oq as (a & od & b & Hq & Eid & Bq). pose proof (Df (or_introl eq_refl)) as Bn; unfold diffable in Bn. cbn [fst snd] in *.
    destruct (entry_wf _ _ (gp, od) Hq ltac:(apply in_or_app; right; left; reflexivity)) as (Wg & Sg & Bg). cbn [fst snd] in *.
    pose proof (part_offset_at _ _ _ _ _ Hq) as PO. rewrite (part_size_stored gp) by (auto; lia). rewrite PO.
    pose proof (zlen_nonneg (concat (map snd a))) as Na. pose proof (zlen_nonneg (concat (map snd b))) as Nb. pose proof (zlen_nonneg od) as Nod.
    pose proof (ho_file _ _ Hq) as Fq. pose proof (zlen_enc_header _ (ho_wf _ _ Hq)) as Lq.
    assert (Lf : zlen (pk_file q) = 4096 + zlen (concat (map snd a)) + zlen od + zlen (concat (map snd b))).
    { rewrite Fq, zlen_app, Lq, zlen_split. cbn [snd]. lia. }
    assert (So : slice (4096 + zlen (concat (map snd a))) (zlen od) (pk_file q) = od).
    { pose proof (slice_part (enc_header (pk_header q)) a (gp, od) b [] Lq) as P. cbn [snd] in P. rewrite app_nil_r, <- Fq in P. exact P. }
    rewrite <- Sg, S. unfold transport_bsdiff.
    pose proof (slice_part H es1 (ip, d) es2 [] L) as Sn. cbn [snd] in Sn. rewrite app_nil_r in Sn. rewrite Sn, So.
    destruct (zlen (H ++ concat (map snd (es1 ++ (ip, d) :: es2))) =? 0); [discriminate|]. destruct (zlen (pk_file q) =? 0); [discriminate|].
    destruct (_ || _); [discriminate|]. destruct (sais od) as [sa|]; [|discriminate].
    destruct (bsdiff_none od d sa out (4096 + zlen (concat (map snd cs1)))) as [[pf1 plen]|er| |] eqn:Eb; try discriminate.
    destruct (diff_then_patch od d _ _ (4096 + zlen (concat (map snd cs1))) _ _ Bn ltac:(lia) ltac:(lia) ltac:(lia) Eb) as (x & -> & -> & Dp).
    pose proof (zlen_nonneg x). destruct (Z.ltb_spec (zlen x) 0); [lia|]. intros E. injection E as <- <-.
    exists (mkPart (p_id ip) (p_size ip) (p_offset ip) (zlen x) (p_pad_bytes ip) (Z.setbit (p_flags ip) 1) (p_pad ip), x).
    split; [|split; reflexivity]. split; [reflexivity|]. exists q. split; [reflexivity|]. cbn [fst snd].
    assert (DP : data_pos (pk_header q) ip = 4096 + zlen (concat (map snd a))).
    { unfold data_pos. replace (part_offset (pk_header q) ip) with (4096 + zlen (concat (map snd a))).
      - rewrite s64_id; unfold HDR_SIZE; lia.
      - rewrite <- PO. unfold part_offset. now rewrite Eid. }
    rewrite DP. intros woff f l Hw Hc Hne. apply Dp; auto; try (unfold PATCH_BUF; lia).
  - (* PatchHs *)
    rewrite (Eh eq_refl). change ((ID_BSDIFF =? ID_BSDIFF) || (ID_BSDIFF =? ID_BSDIFF_NO_COMP) || (ID_BSDIFF =? ID_BSDIFF_LZMA)) with true.
    cbn match. destruct origin as [q|]; [|discriminate]. change (ID_BSDIFF =? ID_BSDIFF_LZMA) with false. change (ID_BSDIFF =? ID_BSDIFF) with true.
    cbn match. destruct Oq as (a & od & b & Hq & Eid & Bq). pose proof (Df (or_intror (or_introl eq_refl))) as Bn; unfold diffable in Bn. cbn [fst snd] in *.
    destruct (entry_wf _ _ (gp, od) Hq ltac:(apply in_or_app; right; left; reflexivity)) as (Wg & Sg & Bg). cbn [fst snd] in *.
    pose proof (part_offset_at _ _ _ _ _ Hq) as PO. rewrite (part_size_stored gp) by (auto; lia). rewrite PO.
    pose proof (zlen_nonneg (concat (map snd a))) as Na. pose proof (zlen_nonneg (concat (map snd b))) as Nb. pose proof (zlen_nonneg od) as Nod.
    pose proof (ho_file _ _ Hq) as Fq. pose proof (zlen_enc_header _ (ho_wf _ _ Hq)) as Lq.
    assert (Lf : zlen (pk_file q) = 4096 + zlen (concat (map snd a)) + zlen od + zlen (concat (map snd b))).
    { rewrite Fq, zlen_app, Lq, zlen_split. cbn [snd]. lia. }
    assert (So : slice (4096 + zlen (concat (map snd a))) (zlen od) (pk_file q) = od).
    { pose proof (slice_part (enc_header (pk_header q)) a (gp, od) b [] Lq) as P. cbn [snd] in P. rewrite app_nil_r, <- Fq in P. exact P. }
    rewrite <- Sg, S. unfold transport_bsdiff.
    pose proof (slice_part H es1 (ip, d) es2 [] L) as Sn. cbn [snd] in Sn. rewrite app_nil_r in Sn. rewrite Sn, So.
    destruct (zlen (H ++ concat (map snd (es1 ++ (ip, d) :: es2))) =? 0); [discriminate|]. destruct (zlen (pk_file q) =? 0); [discriminate|].
    destruct (_ || _); [discriminate|]. destruct (sais od) as [sa|]; [|discriminate].
    destruct (bsdiff_hs od d sa out (4096 + zlen (concat (map snd cs1)))) as [[pf1 plen]|er| |] eqn:Eb; try discriminate.
    destruct (hs_diff_then_patch od d _ _ (4096 + zlen (concat (map snd cs1))) _ _ Bn ltac:(lia) ltac:(lia) ltac:(lia) Eb) as (x & -> & -> & Dp).
    pose proof (zlen_nonneg x). destruct (Z.ltb_spec (zlen x) 0); [lia|]. intros E. injection E as <- <-.
    exists (mkPart (p_id ip) (p_size ip) (p_offset ip) (zlen x) (p_pad_bytes ip) (Z.setbit (p_flags ip) 1) (p_pad ip), x).
    split; [|split; reflexivity]. split; [reflexivity|]. exists q. split; [reflexivity|]. cbn [fst snd].
    assert (DP : data_pos (pk_header q) ip = 4096 + zlen (concat (map snd a))).
    { unfold data_pos. replace (part_offset (pk_header q) ip) with (4096 + zlen (concat (map snd a))).
      - rewrite s64_id; unfold HDR_SIZE; lia.
      - rewrite <- PO. unfold part_offset. now rewrite Eid. }
    rewrite DP. intros woff f l Hw Hc Hne. apply Dp; auto; try (unfold PATCH_BUF; lia).
  - (* PatchLz *)
    rewrite (El eq_refl). change ((ID_BSDIFF_LZMA =? ID_BSDIFF) || (ID_BSDIFF_LZMA =? ID_BSDIFF_NO_COMP) || (ID_BSDIFF_LZMA =? ID_BSDIFF_LZMA)) with true.
    cbn match. destruct origin as [q|]; [|discriminate]. change (ID_BSDIFF_LZMA =? ID_BSDIFF) with false. change (ID_BSDIFF_LZMA =? ID_BSDIFF_LZMA) with true.
    cbn match. destruct Oq as (a & od & b & Hq & Eid & Bq). pose proof (Df (or_intror (or_intror eq_refl))) as Bn; unfold diffable in Bn. cbn [fst snd] in *.
    destruct (entry_wf _ _ (gp, od) Hq ltac:(apply in_or_app; right; left; reflexivity)) as (Wg & Sg & Bg). cbn [fst snd] in *.
    pose proof (part_offset_at _ _ _ _ _ Hq) as PO. rewrite (part_size_stored gp) by (auto; lia). rewrite PO.
    pose proof (zlen_nonneg (concat (map snd a))) as Na. pose proof (zlen_nonneg (concat (map snd b))) as Nb. pose proof (zlen_nonneg od) as Nod.
    pose proof (ho_file _ _ Hq) as Fq. pose proof (zlen_enc_header _ (ho_wf _ _ Hq)) as Lq.
    assert (Lf : zlen (pk_file q) = 4096 + zlen (concat (map snd a)) + zlen od + zlen (concat (map snd b))).
    { rewrite Fq, zlen_app, Lq, zlen_split. cbn [snd]. lia. }
    assert (So : slice (4096 + zlen (concat (map snd a))) (zlen od) (pk_file q) = od).
    { pose proof (slice_part (enc_header (pk_header q)) a (gp, od) b [] Lq) as P. cbn [snd] in P. rewrite app_nil_r, <- Fq in P. exact P. }
    rewrite <- Sg, S. unfold transport_bsdiff.
    pose proof (slice_part H es1 (ip, d) es2 [] L) as Sn. cbn [snd] in Sn. rewrite app_nil_r in Sn. rewrite Sn, So.
    destruct (zlen (H ++ concat (map snd (es1 ++ (ip, d) :: es2))) =? 0); [discriminate|]. destruct (zlen (pk_file q) =? 0); [discriminate|].
    destruct (b_lzma bld) eqn:Ebl; [|discriminate]. cbn [negb]. destruct (_ || _); [discriminate|]. destruct (sais od) as [sa|]; [|discriminate].
    destruct (bsdiff_lz (lz_enc (b_lib bld)) od d sa out (4096 + zlen (concat (map snd cs1)))) as [[pf1 plen]|er| |] eqn:Eb; try discriminate.
    destruct (lz_diff_then_patch (b_lib bld) od d _ _ (4096 + zlen (concat (map snd cs1))) _ _ (Hlz eq_refl) Bn ltac:(lia) ltac:(lia) ltac:(lia) Eb) as (x & -> & -> & Dp).
    pose proof (zlen_nonneg x). destruct (Z.ltb_spec (zlen x) 0); [lia|]. intros E. injection E as <- <-.
    exists (mkPart (p_id ip) (p_size ip) (p_offset ip) (zlen x) (p_pad_bytes ip) (Z.setbit (p_flags ip) 1) (p_pad ip), x).
    split; [|split; reflexivity]. split; [reflexivity|]. exists q. split; [reflexivity|]. split; [exact Ebl|]. cbn [fst snd].
    assert (DP : data_pos (pk_header q) ip = 4096 + zlen (concat (map snd a))).
    { unfold data_pos. replace (part_offset (pk_header q) ip) with (4096 + zlen (concat (map snd a))).
      - rewrite s64_id; unfold HDR_SIZE; lia.
      - rewrite <- PO. unfold part_offset. now rewrite Eid. }
    rewrite DP. intros woff f l Hw Hc Hne.
    destruct (Dp (pk_file q) (4096 + zlen (concat (map snd a))) woff PATCH_BUF f l []) as [D1 _]; auto; try (unfold PATCH_BUF; lia).
    { rewrite app_nil_r. exact Hc. }
    specialize (D1 eq_refl). unfold lzp_all in D1.
    destruct (lzp_chunks _ (pk_file q) (4096 + zlen (concat (map snd a))) woff PATCH_BUF (lzp_init _) f l) as [[h1 f1] [[]|x1| |]]; try discriminate.
    destruct (lzp_final _ (pk_file q) (4096 + zlen (concat (map snd a))) woff PATCH_BUF h1 f1) as [[h2 f2] r2] eqn:Ef. injection D1 as -> ->.
    exists h1, f1, h2. auto.
  - (* Tree *)
    rewrite (Et eq_refl). change ((ID_REMOVE_DATA =? ID_BSDIFF) || (ID_REMOVE_DATA =? ID_BSDIFF_NO_COMP) || (ID_REMOVE_DATA =? ID_BSDIFF_LZMA)) with false.
    change (ID_REMOVE_DATA =? ID_REMOVE_DATA) with true. cbn match. change (0 <? 0) with false. cbn match. intros E. injection E as <- <-.
    exists (mkPart (p_id ip) (p_size ip) (p_offset ip) 0 (p_pad_bytes ip) (Z.setbit (p_flags ip) 1) (p_pad ip), []).
    split; [split; reflexivity|]. split; [reflexivity|]. cbn [snd]. now rewrite fwrite_at_nil.
Qed.

(* ---- all parts ---- *)
Lemma same_set ih oh i p : same_besides_table ih oh -> same_besides_table ih (set_part oh i p).
Proof. unfold same_besides_table, set_part. intros ->. reflexivity. Qed.
Lemma app_cons {A} (a : list A) x b : a ++ x :: b = (a ++ [x]) ++ b.
Proof. now rewrite <- app_assoc. Qed.
Lemma encode_loop_ok (Hlz : b_lzma bld = true -> lz_good (b_lib bld)) sais ih H (st : Z -> setting) origin f0 (es : entries) :
  zlen H = 4096 -> lay ih es -> wf_header ih -> 4096 + zlen (concat (map snd es)) < 2^62 -> plain es ->
  Forall (fun e : parth * bytes => has_setting ih (p_id (fst e)) (st (p_id (fst e))) /\ origin_has origin (p_id (fst e)) /\
     (patched (st (p_id (fst e))) -> diffable e)) es ->
  forall (es2 es1 cs1 : entries) k oh out oh' out', es = es1 ++ es2 -> lay oh (cs1 ++ es2) -> same_besides_table ih oh ->
  out = fwrite_at f0 4096 (concat (map snd cs1)) ->
  encode_loop bld sais ih (H ++ concat (map snd es)) origin (map fst es2 ++ repeat zero_part k) oh out = (oh', out', Ok tt) -> zlen out' < 2^62 ->
  exists cs2 : entries, Forall2 (fun e c => coded origin (st (p_id (fst e))) e c) es2 cs2 /\ lay oh' (cs1 ++ cs2) /\ same_besides_table ih oh' /\
    out' = fwrite_at f0 4096 (concat (map snd (cs1 ++ cs2))).
Proof.
  intros L Li W Bi Pl St. induction es2 as [|e es2 IH]; intros es1 cs1 k oh out oh' out' Ees Lo Sb Eo R Bo.
  { assert (R' : (oh, out, Ok tt) = (oh', out', Ok tt)). { rewrite <- R. destruct k; reflexivity. }
    injection R' as <- <-. exists []. rewrite app_nil_r in *. auto. }
  assert (Hin : In e es) by (rewrite Ees; apply in_or_app; right; left; reflexivity).
  unfold plain in Pl. rewrite Forall_forall in Pl, St. specialize (Pl _ Hin). destruct (St _ Hin) as (Se & Og & Df).
  assert (B1 : 4096 + zlen (concat (map snd cs1)) < 2^62).
  { destruct (concat (map snd cs1)) as [|z r] eqn:E. { change (zlen (@nil Z)) with 0. lia. }
    destruct (zlen_fwrite f0 4096 (z :: r) ltac:(lia)) as [_ G]. specialize (G ltac:(discriminate)). rewrite <- Eo in G.
    match type of R with encode_loop _ ?a ?b ?c ?d ?l ?x ?y = _ => pose proof (encode_grows a b c d l x y) as G2 end.
    rewrite R in G2. cbn [fst snd] in G2. lia. }
  cbn [map app encode_loop] in R. destruct (Z.eqb_spec (p_id (fst e)) 0) as [Z0|_].
  { exfalso. pose proof (la_nonzero _ _ Li) as N. rewrite Forall_forall in N. exact (N _ Hin Z0). }
  assert (Key : exists c oh1, coded origin (st (p_id (fst e))) e c /\ oh1 = set_part oh (length cs1) (fst c) /\
     encode_loop bld sais ih (H ++ concat (map snd es)) origin (map fst es2 ++ repeat zero_part k) oh1
       (fwrite_at out (4096 + zlen (concat (map snd cs1))) (snd c)) = (oh', out', Ok tt)).
  { assert (Go : forall enc dec, st (p_id (fst e)) <> AsIs -> 0 <= enc < 2^32 -> 0 <= dec < 2^32 ->
      meta_starts ih ID_BPAK_TRANSPORT (p_id (fst e)) (le 4 enc ++ le 4 dec) ->
      (st (p_id (fst e)) = Patch -> enc = ID_BSDIFF_NO_COMP) -> (st (p_id (fst e)) = PatchHs -> enc = ID_BSDIFF) -> (st (p_id (fst e)) = PatchLz -> enc = ID_BSDIFF_LZMA) ->
      (st (p_id (fst e)) = Tree -> enc = ID_REMOVE_DATA) ->
      exists c oh1, coded origin (st (p_id (fst e))) e c /\ oh1 = set_part oh (length cs1) (fst c) /\
     encode_loop bld sais ih (H ++ concat (map snd es)) origin (map fst es2 ++ repeat zero_part k) oh1
       (fwrite_at out (4096 + zlen (concat (map snd cs1))) (snd c)) = (oh', out', Ok tt)).
    { intros enc dec Ns He Hd Ms E1 E2 E2' E3. destruct (setting_get _ _ _ _ W He Hd Ms) as (m & b1 & b2 & Gm & M1 & U1 & _).
      rewrite Gm, M1, U1 in R.
      destruct (transport_encode_part bld sais enc (p_id (fst e)) ih (H ++ concat (map snd es)) oh out origin) as [[oh1 out1] [[]|x| |]] eqn:Ep;
        try discriminate.
      rewrite Ees in *. destruct (encode_step Hlz _ _ _ _ es1 cs1 e es2 _ _ (st (p_id (fst e))) _ _ _ L Li Lo Bi B1 Pl Og Ns Df E1 E2 E2' E3 Ep) as (c & Cc & -> & ->).
      exists c, (set_part oh (length cs1) (fst c)). auto. }
    destruct (st (p_id (fst e))) eqn:Est; cbn [has_setting] in Se.
    - exists e, oh. split; [reflexivity|]. 
      assert (Zs : set_part oh (length cs1) (fst e) = oh).
      { destruct e as [q d]. cbn [fst]. destruct (lay_upd _ _ _ _ _ q d Lo eq_refl) as [_ U].
        { pose proof (lay_bound _ _ _ _ Lo) as S. exact S. }
        transitivity (with_parts oh (h_parts oh)); [|apply with_parts_id]. rewrite U. f_equal. symmetry. exact (la_table _ _ Lo). }
      split; [now rewrite Zs|]. pose proof (meta_none _ _ _ Se) as Gm. change bpak_transport with ID_BPAK_TRANSPORT in Gm. rewrite Gm in R.
      rewrite Ees in R. rewrite (copy_step ih oh H es1 cs1 e es2) in R; auto; try lia; try (now rewrite <- Ees).
      rewrite Ees. exact R.
    - apply (Go _ _ ltac:(discriminate)) in Se; auto; try discriminate; unfold ID_BSDIFF_NO_COMP; lia.
    - apply (Go _ _ ltac:(discriminate)) in Se; auto; try discriminate; unfold ID_BSDIFF; lia.
    - apply (Go _ _ ltac:(discriminate)) in Se; auto; try discriminate; unfold ID_BSDIFF_LZMA; lia.
    - apply (Go _ _ ltac:(discriminate)) in Se; auto; try discriminate; unfold ID_REMOVE_DATA; lia. }
  destruct Key as (c & oh1 & Cc & E1 & R1).
  assert (Sc : p_id (fst c) = p_id (fst e) /\ part_size (fst c) = zlen (snd c)).
  { pose proof (lay_bound _ _ _ _ Lo) as S. destruct (st (p_id (fst e))); cbn [coded] in Cc.
    - subst c. auto.
    - destruct Cc as [T _]. split; [eapply travels_id; eauto|eapply travels_size; eauto].
    - destruct Cc as [T _]. split; [eapply travels_id; eauto|eapply travels_size; eauto].
    - destruct Cc as [T _]. split; [eapply travels_id; eauto|eapply travels_size; eauto].
    - destruct Cc as [T E0]. split; [eapply travels_id; eauto|]. rewrite E0. change (zlen (@nil Z)) with 0. eapply travels_size; eauto. }
  destruct Sc as [Si Ss]. destruct e as [q d], c as [q' d']. cbn [fst snd] in *.
  destruct (lay_upd _ _ _ _ _ q' d' Lo Si Ss) as [Lo1 _]. rewrite <- E1 in Lo1. rewrite app_cons in Lo1.
  destruct (IH (es1 ++ [(q, d)]) (cs1 ++ [(q', d')]) k oh1 (fwrite_at f0 4096 (concat (map snd (cs1 ++ [(q', d')])))) oh' out') as (cs2 & F & Lf & Sf & Of); auto.
  - now rewrite Ees, app_cons.
  - rewrite E1. now apply same_set.
  - rewrite <- R1, Eo. f_equal. rewrite map_app, concat_app. cbn [map concat snd]. rewrite app_nil_r. rewrite fwrite_at_app by lia. reflexivity.
  - exists ((q', d') :: cs2). rewrite app_cons. split; [|auto]. constructor; auto.
Qed.

Lemma encode_ok (Hlz : b_lzma bld = true -> lz_good (b_lib bld)) sais p es (st : Z -> setting) origin oh0 f0 pe :
  holds p es -> plain es -> zlen (pk_file p) < 2^62 ->
  Forall (fun e : parth * bytes => has_setting (pk_header p) (p_id (fst e)) (st (p_id (fst e))) /\ origin_has origin (p_id (fst e)) /\
     (patched (st (p_id (fst e))) -> diffable e)) es ->
  transport_encode bld sais p oh0 f0 origin = (pe, Ok tt) -> zlen (pk_file pe) < 2^62 ->
  exists cs : entries, Forall2 (fun e c => coded origin (st (p_id (fst e))) e c) es cs /\ lay (pk_header pe) cs /\
    same_besides_table (pk_header p) (pk_header pe) /\ pk_file pe = fwrite_at f0 0 (enc_header (pk_header pe) ++ concat (map snd cs)).
Proof.
  intros Hp Pl Bp St E Be. pose proof (ho_wf _ _ Hp) as W. pose proof (zlen_enc_header _ W) as LH. pose proof (ho_file _ _ Hp) as Fp.
  pose proof (holds_lay _ _ Hp) as Lp. unfold transport_encode in E.
  destruct (match origin with Some q => _ | None => _ end) as [u|x| |]; try discriminate.
  destruct (encode_loop bld sais (pk_header p) (pk_file p) origin (h_parts (pk_header p)) (pk_header p) f0) as [[oh out1] [[]|x| |]] eqn:R; try discriminate.
  injection E as <-. cbn [pk_header pk_file] in *. rewrite (la_table _ _ Lp), Fp in R.
  destruct (zlen_fwrite out1 0 (enc_header oh) ltac:(lia)) as [G _].
  assert (Bi : 4096 + zlen (concat (map snd es)) < 2^62) by (rewrite <- LH, <- zlen_app, <- Fp; exact Bp).
  destruct (encode_loop_ok Hlz sais (pk_header p) (enc_header (pk_header p)) st origin f0 es LH Lp W Bi Pl St es [] []
    (32 - length es) (pk_header p) f0 oh out1 eq_refl Lp) as (cs & F & Lo & Sb & Eo); auto.
  - unfold same_besides_table. now rewrite with_parts_id.
  - lia.
  - exists cs. cbn [app] in *. do 3 (split; [assumption|]). rewrite Eo.
    rewrite <- (zlen_enc_same (pk_header p) oh cs W Sb Lo). apply fwrite_under.
Qed.
End B.
