(* ViewShow.v -- src/show.c *)
From Coq Require Import Lia String.
From Verif Require Import Base BaseLemmas HeaderModel HeaderSpec CrcModel CodecProofs PartProofs MetaProofs HashModel VerifyModel VerifySpec VerifyProofs VerifySign
  PkgModel PkgSpec PkgProofs PkgTrees PkgApi UtilModel UtilSpec UtilProofs UtilMeta CliModel CliSpec ViewModel ViewSpec ViewProofs.
Local Open Scope Z_scope.
Local Open Scope list_scope.

Lemma show_open sha p ms es : package p ms es ->
  (do q <- snd (pkg_open sha false (pk_file p)); do _ <- valid_header (pk_header q); Ok q) = Ok p.
Proof. intros (H & V & _). rewrite (reopen sha false p es H V). cbn [snd bind]. rewrite V. reflexivity. Qed.
Lemma holds_sizes p es : holds p es -> sizes_ok (h_parts (pk_header p)).
Proof.
  intros H. rewrite (ho_table _ _ H). apply Forall_app. split.
  - apply Forall_forall. intros q Hq. apply in_map_iff in Hq as (e & <- & He). destruct (entry_wf _ _ _ H He) as (W & S & B). split; [exact W|lia].
  - apply Forall_forall. intros q Hq. apply repeat_spec in Hq. subst q. split; [exact wf_zero_part|reflexivity].
Qed.
Lemma update_ok sha p es junk : holds p es -> good_hash sha -> hash_supported (h_hash_kind (pk_header p)) = true ->
  show_update sha p junk = (mkPkg (current_header sha (pk_header p) es) (pk_file p), Ok (header_digest sha (current_header sha (pk_header p) es))).
Proof.
  intros H G Hs. set (h := pk_header p) in *. unfold show_update, pkg_update_hash. fold h.
  destruct (payload_of_contents (pk_file p) (enc_header h) es [] (zlen_enc_header _ (ho_wf _ _ H))) as [A B].
  { rewrite app_nil_r. apply (ho_file _ _ H). }
  { apply (ho_sizes _ _ H). }
  { apply (ho_nonzero _ _ H). }
  pose proof (holds_table _ _ H) as T. fold h in T. rewrite <- T in A, B.
  destruct (payload_hash_spec sha h (pk_file p) HDR_SIZE 64 (holds_sizes _ _ H) ltac:(unfold HDR_SIZE; lia)) as [_ P].
  destruct (P Hs) as [_ P2]. destruct (P2 A) as [_ P3]. pose proof (digest_len_le (h_hash_kind h)) as Dle. rewrite P3 by lia.
  change HDR_SIZE with 4096. rewrite B. clear P P2 P3.
  set (d := sha (h_hash_kind h) (covered es)).
  assert (E : VerifyModel.with_payload_hash h (splice 0 d (h_payload_hash h)) = current_header sha h es).
  { unfold current_header. fold d. unfold splice. rewrite ztake_0, Z.add_0_l. reflexivity. }
  rewrite E. rewrite header_hash_spec.
  - reflexivity.
  - rewrite <- E. destruct (G _ (covered es) Hs) as [D1 D2]. fold d in D1, D2. destruct (wf_payload_hash _ (ho_wf _ _ H)) as [L Bt].
    apply wf_with_payload_hash; [apply (ho_wf _ _ H)| |].
    + rewrite zlen_splice; [exact L|lia|]. fold h in L. lia.
    + now apply bytes_ok_splice.
  - exact Hs.
  - cbn [current_header HeaderModel.with_payload_hash h_hash_kind]. unfold current_header. cbn [h_hash_kind HeaderModel.with_payload_hash]. lia.
Qed.
Lemma show_metas_ok h ms : wf_header h -> metas_are (h_meta h) (h_metadata h) ms -> Forall (printable 128) ms ->
  forall l i buf, skipn i (h_meta h) = l -> zlen buf = 128 -> exists ls,
    show_metas h i l buf = (ls, Ok tt) /\ Forall2 show_entry ls (skipn i ms).
Proof.
  intros W M P. induction l as [|m l IH]; intros i buf Hl BL.
  - cbn [show_metas]. exists []. split; [reflexivity|]. rewrite skipn_all2; [constructor|]. pose proof M as (L & _ & L' & _).
    assert (X : length (skipn i (h_meta h)) = 0%nat) by now rewrite Hl. rewrite skipn_length in X. lia.
  - destruct (skipn_nth _ _ _ _ Hl) as [Hm Hl'].
    destruct (slot_cases h ms i m M Hm) as [(e & He & Ek)|(Ek & Z0)]; rewrite Ek; cbn [show_metas].
    + destruct (live_slot h ms i e M He) as (m' & Hm' & E1 & E2 & E3 & _). assert (m' = m) by congruence. subst m'.
      pose proof (nth_error_In _ _ He) as Hin. rewrite E1. destruct (Z.eqb_spec (e_id e) 0) as [X|_]; [elim (live_nonzero h ms e M Hin X)|].
      rewrite Forall_forall in P. destruct (shown_ok h ms i e buf W M He ltac:(lia)) as (buf1 & s & -> & Lb & T); [rewrite BL; auto|].
      destruct (IH (S i) buf1 Hl' ltac:(lia)) as (ls & -> & F). eexists. split; [reflexivity|]. constructor; [|exact F]. cbn [show_entry]. auto.
    + rewrite Z0. cbn [Z.eqb]. destruct (IH (S i) buf Hl' BL) as (ls & E & F).
      assert (X : skipn (S i) ms = []).
      { apply skipn_all2. assert (X : length (skipn i ms) = 0%nat) by (rewrite Ek; reflexivity). rewrite skipn_length in X. lia. }
      rewrite X in F. exists ls. auto.
Qed.
Lemma hex_shown_ok d buf : bytes_ok d -> 2 * zlen d + 1 <= zlen buf -> exists b s, hex_shown d buf = Ok (b, s) /\ zlen b = zlen buf /\ hex_lower s d.
Proof.
  intros B L. unfold hex_shown. rewrite bin2hex_fits by exact L. unfold c_text.
  rewrite (holds_string_cstr _ (flat_map hex2 d)).
  - cbn [bind]. do 2 eexists. split; [reflexivity|]. split.
    + rewrite !zlen_app, hex2_len, zlen_zdrop. change (zlen [0]) with 1. pose proof (zlen_nonneg d). lia.
    + split; [apply hex2_text; exact B|]. intros c I. apply hex2_chars in I. lia.
  - apply holds_app. intros I. apply hex2_chars in I. lia.
Qed.
Lemma hex_shown_over d buf : zlen buf < 2 * zlen d + 1 -> hex_shown d buf = UB.
Proof.
  intros L. unfold hex_shown. pose proof (bin2hex_overflows d buf L) as U. destruct (bin2hex d buf) as [b r]. cbn [snd] in U. subst r. reflexivity.
Qed.
Lemma current_payload sha h es : good_hash sha -> hash_supported (h_hash_kind h) = true -> zlen (h_payload_hash h) = 64 ->
  let d := sha (h_hash_kind h) (covered es) in
  zlen d = digest_len (h_hash_kind h) /\ bytes_ok d /\ h_payload_hash (current_header sha h es) = d ++ zdrop (zlen d) (h_payload_hash h) /\
  slice 0 (zlen d) (h_payload_hash (current_header sha h es)) = d /\ h_hash_kind (current_header sha h es) = h_hash_kind h /\
  zlen (header_digest sha (current_header sha h es)) = zlen d /\ bytes_ok (header_digest sha (current_header sha h es)).
Proof.
  intros G Hs L d. destruct (G _ (covered es) Hs) as [D1 D2]. fold d in D1, D2. split; [exact D1|]. split; [exact D2|].
  unfold current_header. fold d. cbn [HeaderModel.with_payload_hash h_payload_hash h_hash_kind]. split; [reflexivity|].
  split; [rewrite slice_0, ztake_app_l by lia; now rewrite ztake_all by lia|]. split; [reflexivity|].
  unfold header_digest. cbn [HeaderModel.with_payload_hash h_hash_kind]. rewrite D1. apply (G _ _ Hs).
Qed.
Lemma show_all_ok sha p ms es junk hex : package p ms es -> good_hash sha ->
  hash_supported (h_hash_kind (pk_header p)) = true -> zlen hex = 128 -> Forall (printable 128) ms ->
  (h_hash_kind (pk_header p) <> HASH_SHA512 -> exists ls, cli_show sha junk hex ShowAll (pk_file p) = (ls, Ok tt) /\ show_report sha p ms es ls) /\
  (h_hash_kind (pk_header p) = HASH_SHA512 -> snd (cli_show sha junk hex ShowAll (pk_file p)) = UB).
Proof.
  intros P G Hs HL PR. pose proof P as (H & V & M). unfold cli_show. rewrite (show_open sha _ _ _ P). unfold show_all.
  destruct (show_metas_ok _ _ (ho_wf _ _ H) M PR (h_meta (pk_header p)) 0 (zeros 128) eq_refl eq_refl) as (mls & -> & F). cbn [skipn] in F.
  rewrite (update_ok sha p es junk H G Hs). cbn [pk_header].
  destruct (wf_payload_hash _ (ho_wf _ _ H)) as [L Bt].
  destruct (current_payload sha (pk_header p) es G Hs L) as (D1 & D2 & D3 & D4 & D5 & D6 & D7).
  set (d := sha (h_hash_kind (pk_header p)) (covered es)) in *. set (c := current_header sha (pk_header p) es) in *.
  split; intros K.
  - assert (DL : zlen d <= 48).
    { rewrite D1. unfold digest_len. destruct (_ =? HASH_SHA256); [lia|]. destruct (_ =? HASH_SHA384); [lia|].
      destruct (Z.eqb_spec (h_hash_kind (pk_header p)) HASH_SHA512); [contradiction|lia]. }
    destruct (hex_shown_ok (header_digest sha c) hex D7 ltac:(lia)) as (b1 & s1 & -> & L1 & T1). cbn [bind].
    rewrite D6, D4. destruct (hex_shown_ok d b1 D2 ltac:(lia)) as (b2 & s2 & -> & L2 & T2). cbn [bind].
    eexists. split; [reflexivity|]. exists mls, (SHash s1 s2). split; [|split; [exact F|split; [exact T1|exact T2]]].
    f_equal. f_equal. f_equal.
    + change (filter (fun q => negb (p_id q =? 0)) (h_parts (pk_header p))) with (used (h_parts (pk_header p))).
      rewrite (holds_table _ _ H), used_table by (apply Forall_map; exact (ho_nonzero _ _ H)). rewrite map_map. reflexivity.
    + f_equal. fold c. destruct (bytes_dec (h_payload_hash c) (h_payload_hash (pk_header p))) as [E|E].
      * rewrite E, BaseLemmas.bytes_eqb_refl. reflexivity.
      * apply bytes_eqb_neq in E. rewrite E. reflexivity.
  - rewrite hex_shown_over; [reflexivity|]. rewrite D6, D1, K. change (digest_len HASH_SHA512) with 64. lia.
Qed.

(* --meta *)
Lemma show_meta_ok h ms id part : wf_header h -> metas_are (h_meta h) (h_metadata h) ms -> id <> 0 ->
  forall l i, skipn i (h_meta h) = l ->
  match find (selects id part) (skipn i ms) with
  | Some e => printable 128 e -> exists s, shown_text e s /\
      show_meta_loop h id part i l (zeros 128) = (if zlen s =? 0 then [] else [SText s], Ok tt)
  | None => show_meta_loop h id part i l (zeros 128) = ([], Err E_MISSING_META_DATA)
  end.
Proof.
  intros W M Hid. induction l as [|m l IH]; intros i Hl.
  - rewrite skipn_all2; [reflexivity|]. pose proof M as (L & _ & L' & _).
    assert (X : length (skipn i (h_meta h)) = 0%nat) by now rewrite Hl. rewrite skipn_length in X. lia.
  - destruct (skipn_nth _ _ _ _ Hl) as [Hm Hl'].
    destruct (slot_cases h ms i m M Hm) as [(e & He & Ek)|(Ek & Z0)]; rewrite Ek; cbn [show_meta_loop find].
    + destruct (live_slot h ms i e M He) as (m' & Hm' & E1 & E2 & E3 & _). assert (m' = m) by congruence. subst m'.
      unfold selects at 1. rewrite E1, E2. destruct ((e_id e =? id) && _) eqn:S.
      * intros P. destruct (shown_ok h ms i e (zeros 128) W M He) as (buf1 & s & -> & Lb & T); [vm_compute; congruence|exact P|]. exists s. auto.
      * apply IH. exact Hl'.
    + rewrite Z0. destruct (Z.eqb_spec 0 id) as [X|_]; [now elim Hid|]. cbn [andb]. specialize (IH (S i) Hl').
      assert (X : skipn (S i) ms = []).
      { apply skipn_all2. assert (X : length (skipn i ms) = 0%nat) by (rewrite Ek; reflexivity). rewrite skipn_length in X. lia. }
      rewrite X in IH. exact IH.
Qed.
(* --part *)
Lemma find_app {A} (f : A -> bool) a b : find f (a ++ b) = match find f a with Some x => Some x | None => find f b end.
Proof. induction a as [|x a IH]; [reflexivity|]. cbn [app find]. destruct (f x); [reflexivity|exact IH]. Qed.
Lemma find_map {A B} (g : A -> B) (f : B -> bool) l : find f (map g l) = option_map g (find (fun x => f (g x)) l).
Proof. induction l as [|x l IH]; [reflexivity|]. cbn [map find]. destruct (f (g x)); [reflexivity|exact IH]. Qed.
Lemma find_table p (es : list (parth * bytes)) id : holds p es -> id <> 0 ->
  find (fun q => p_id q =? id) (h_parts (pk_header p)) = option_map fst (find (fun e : parth * bytes => p_id (fst e) =? id) es).
Proof.
  intros H Hid. rewrite (ho_table _ _ H), find_app, find_map. destruct (find (fun x : parth * bytes => p_id (fst x) =? id) es); [reflexivity|].
  cbn [option_map]. induction (32 - length es)%nat as [|k IH]; [reflexivity|]. cbn [repeat find]. change (p_id zero_part) with 0.
  destruct (Z.eqb_spec 0 id); [now elim Hid|exact IH].
Qed.
(* --part-hash *)
Lemma sha256_loop_ok f : forall fuel c pos left, 0 <= left -> 0 <= pos -> pos + left <= zlen f -> (left + 4095) / 4096 <= Z.of_nat fuel ->
  sha256_loop f fuel c pos left = Ok (fst c, snd c ++ slice pos left f).
Proof.
  induction fuel as [|k IH]; intros [a b] pos left L0 H1 B1 HF; cbn [fst snd].
  - assert (left = 0) by lia. subst left. cbn [sha256_loop Z.eqb]. rewrite slice_neg_len, app_nil_r by lia. reflexivity.
  - cbn [sha256_loop]. destruct (Z.eqb_spec left 0) as [->|NZ].
    + rewrite slice_neg_len, app_nil_r by lia. reflexivity.
    + unfold CHUNK. set (n := if left >? 4096 then 4096 else left).
      assert (Hn : 0 < n /\ n <= left /\ n <= 4096 /\ (n = left \/ n = 4096)) by (unfold n; destruct (Z.gtb_spec left 4096); lia).
      unfold fread_at. rewrite zlen_slice_in by lia. rewrite Z.eqb_refl. rewrite IH by lia. unfold hash_update. cbn [fst snd].
      replace left with (n + (left - n)) at 2 by lia. rewrite slice_split by lia. rewrite app_assoc. reflexivity.
Qed.
Lemma part_hash_ok sha p (es : list (parth * bytes)) id : holds p es -> id <> 0 ->
  pkg_part_sha256 sha p id 64 =
  match find (fun e : parth * bytes => p_id (fst e) =? id) es with Some e => Ok (sha HASH_SHA256 (part_data e)) | None => Err E_NOT_FOUND end.
Proof.
  intros H Hid. destruct (find _ es) as [e|] eqn:F.
  - apply find_some in F as F2. destruct F2 as [Hin E]. apply Z.eqb_eq in E. destruct (in_split _ _ Hin) as (a & b & ->). destruct e as [q c]. cbn [fst] in E. subst id.
    unfold pkg_part_sha256. destruct (get_part_at p a q c b H) as [-> Hn]. cbn [bind]. rewrite Hn. rewrite hash_init_ok by reflexivity. cbn [bind].
    destruct (part_bytes p a q c b H) as (S1 & O1 & O2 & S2). destruct (entry_wf p _ (q, c) H ltac:(apply in_elt)) as (Wq & Sq & Bq). cbn [fst snd] in *.
    destruct (Z.ltb_spec (part_offset (pk_header p) q) 0); [lia|].
    assert (X : 0 <= part_size_wo_pad q <= zlen c /\ part_size_wo_pad q = zlen c - (if Z.testbit (p_flags q) 1 then 0 else p_pad_bytes q)).
    { unfold part_size_wo_pad. rewrite has_flag_transport. unfold stored_size in Sq. destruct Wq. unfold u32, u64 in *.
      destruct (Z.testbit (p_flags q) 1); lia. }
    destruct X as [X1 X2]. pose proof (zlen_nonneg c).
    rewrite sha256_loop_ok; [|lia|lia|lia|unfold CHUNK; rewrite Z2Nat.id by lia; lia].
    cbn [bind fst snd app]. rewrite hash_final_ok by (reflexivity || (vm_compute; congruence)). do 2 f_equal.
    unfold part_data. cbn [fst snd]. rewrite <- X2. unfold slice in *. transitivity (ztake (part_size_wo_pad q) (ztake (zlen c) (zdrop (part_offset (pk_header p) q) (pk_file p)))); [|now rewrite S2]. rewrite ztake_ztake. f_equal. lia.
  - unfold pkg_part_sha256. rewrite (get_part_none p es id H Hid); [reflexivity|]. intros I. apply in_map_iff in I as (e & E & I).
    pose proof (find_none _ _ F e I) as X. cbn beta in X. rewrite E, Z.eqb_refl in X. discriminate.
Qed.
Lemma hex_pad_2 d : bytes_ok d -> hex_lower (flat_map (hex_pad false 2) d) d.
Proof.
  intros B. replace (flat_map (hex_pad false 2) d) with (flat_map hex2 d).
  - split; [now apply hex2_text|]. intros c I. apply hex2_chars in I. lia.
  - induction B as [|b r Bb _ IH]; [reflexivity|]. cbn [flat_map]. rewrite IH. f_equal. unfold byte_ok in Bb.
    change 2 with (Z.of_nat 2). rewrite (hex_pad_fix false 2 b) by (cbn; lia).
    assert (X : forall v, 0 <= v < 16 -> hexc v = hexd false v) by (intros v Hv; unfold hexc, hexd; destruct (v <? 10) eqn:?; destruct (v >? 9) eqn:?; lia).
    unfold hex2. cbn [hex_fix app]. rewrite !X by lia. reflexivity.
Qed.
(* the payload is not there, or the hash is not known *)
Lemma show_hash_broken sha (f : bytes) junk hex : let h := dec_header (ztake 4096 f) in
  4096 <= zlen f -> valid_header h = Ok tt -> sizes_ok (h_parts h) -> hash_supported (h_hash_kind h) = false \/ ~ payload_present f 4096 (h_parts h) ->
  cli_show sha junk hex ShowHash f = ([SText (flat_map (hex_pad false 2) junk)], Ok tt) /\
  (exists e, cli_show sha junk hex ShowBinHash f = ([], Err e)).
Proof.
  intros h L V S B. destruct (open_existing sha false f L) as (_ & O & _). fold h in O.
  destruct (O (mkPkg h f)) as [_ O2]. unfold cli_show. rewrite (O2 (conj V eq_refl)). cbn [bind pk_header]. rewrite V. cbn [bind].
  destruct (payload_hash_spec sha h f HDR_SIZE 64 S ltac:(unfold HDR_SIZE; lia)) as [P1 P2]. change HDR_SIZE with 4096 in *.
  unfold show_update, pkg_update_hash. cbn [pk_header pk_file]. change HDR_SIZE with 4096.
  destruct (hash_supported (h_hash_kind h)) eqn:Hs.
  - destruct B as [B|B]; [discriminate B|]. destruct (P2 eq_refl) as [P3 _]. rewrite P3 by exact B. split; [reflexivity|eexists; reflexivity].
  - rewrite P1 by reflexivity. split; [reflexivity|eexists; reflexivity].
Qed.

Lemma show_hash_ok sha p ms es junk hex : package p ms es -> good_hash sha -> hash_supported (h_hash_kind (pk_header p)) = true ->
  let d := header_digest sha (current_header sha (pk_header p) es) in
  cli_show sha junk hex ShowBinHash (pk_file p) = ([SRaw d], Ok tt) /\
  (exists s, hex_lower s d /\ cli_show sha junk hex ShowHash (pk_file p) = ([SText s], Ok tt)).
Proof.
  intros P G Hs d. pose proof P as (H & V & M). destruct (wf_payload_hash _ (ho_wf _ _ H)) as [L Bt].
  destruct (current_payload sha (pk_header p) es G Hs L) as (_ & _ & _ & _ & _ & _ & B). fold d in B.
  unfold cli_show. rewrite (show_open sha _ _ _ P), (update_ok sha p es junk H G Hs). split; [reflexivity|].
  exists (flat_map (hex_pad false 2) d). split; [now apply hex_pad_2|reflexivity].
Qed.
Lemma show_part_ok sha p ms es junk hex id : package p ms es -> id <> 0 -> good_hash sha -> zlen hex = 128 ->
  match find (fun e : parth * bytes => p_id (fst e) =? id) es with
  | Some e => cli_show sha junk hex (ShowPart id) (pk_file p) = ([SFound id (p_size (fst e))], Ok tt) /\
      exists s, hex_lower s (sha HASH_SHA256 (part_data e)) /\ cli_show sha junk hex (ShowPartHash id) (pk_file p) = ([SText s], Ok tt)
  | None => cli_show sha junk hex (ShowPart id) (pk_file p) = ([], Err E_NOT_FOUND) /\
      cli_show sha junk hex (ShowPartHash id) (pk_file p) = ([], Err E_NOT_FOUND)
  end.
Proof.
  intros P Hid G HL. pose proof P as (H & V & M). unfold cli_show. rewrite (show_open sha _ _ _ P), (find_table p es id H Hid), (part_hash_ok sha p es id H Hid).
  destruct (find _ es) as [e|] eqn:F; cbn [option_map]; [|split; reflexivity].
  apply find_some in F as [_ F]. apply Z.eqb_eq in F. rewrite F. split; [reflexivity|]. cbn [bind].
  destruct (G HASH_SHA256 (part_data e) eq_refl) as [D1 D2]. change (digest_len HASH_SHA256) with 32 in D1.
  rewrite slice_0, ztake_all by lia. destruct (hex_shown_ok _ hex D2 ltac:(lia)) as (b & s & -> & _ & T). cbn [bind]. exists s. auto.
Qed.
Lemma show_metas_cmd sha p ms es junk hex id part : package p ms es -> id <> 0 ->
  match find (selects id part) ms with
  | Some e => printable 128 e -> exists s, shown_text e s /\
      cli_show sha junk hex (ShowMeta id part) (pk_file p) = (if zlen s =? 0 then [] else [SText s], Ok tt)
  | None => cli_show sha junk hex (ShowMeta id part) (pk_file p) = ([], Err E_MISSING_META_DATA)
  end.
Proof.
  intros P Hid. pose proof P as (H & V & M). unfold cli_show. rewrite (show_open sha _ _ _ P).
  exact (show_meta_ok _ _ id part (ho_wf _ _ H) M Hid (h_meta (pk_header p)) 0 eq_refl).
Qed.
(* the warning *)
Lemma warn_iff sha p ms es ls : holds p es -> good_hash sha -> hash_supported (h_hash_kind (pk_header p)) = true -> show_report sha p ms es ls ->
  (In SWarn ls <-> ztake (digest_len (h_hash_kind (pk_header p))) (h_payload_hash (pk_header p)) <> sha (h_hash_kind (pk_header p)) (covered es)) /\
  (~ In SWarn ls -> current_header sha (pk_header p) es = pk_header p).
Proof.
  intros H G Hs (mls & hl & -> & F & S). destruct (wf_payload_hash _ (ho_wf _ _ H)) as [L _].
  destruct (current_payload sha (pk_header p) es G Hs L) as (D1 & _ & D3 & _). rewrite <- D1.
  set (d := sha (h_hash_kind (pk_header p)) (covered es)) in *. set (h := pk_header p) in *.
  assert (X : h_payload_hash (current_header sha h es) = h_payload_hash h <-> ztake (zlen d) (h_payload_hash h) = d).
  { rewrite D3. rewrite <- (ztake_zdrop (zlen d) (h_payload_hash h)) at 2. split; intros E.
    - apply app_inv_tail in E. now symmetry.
    - now rewrite E. }
  assert (N : forall t, In SWarn ([SHead (h_hash_kind h) (h_signature_kind h) (h_key_id h) (h_keystore_id h)] ++ mls ++
     map (fun e : parth * bytes => SPart (fst e)) es ++ [hl] ++ t) -> In SWarn t).
  { intros t I. apply in_app_iff in I as [[I|[]]|I]; [discriminate I|]. apply in_app_iff in I as [I|I].
    - exfalso. revert I. clear - F. induction F as [|c e l l' R _ IH]; [intros []|]. intros [->|I]; [exact R|exact (IH I)].
    - apply in_app_iff in I as [I|I]; [apply in_map_iff in I as (e & I & _); discriminate I|].
      apply in_app_iff in I as [[->|[]]|I]; [discriminate S|exact I]. }
  destruct (bytes_dec (h_payload_hash (current_header sha h es)) (h_payload_hash h)) as [E|E].
  - split; [split|].
    + intros I. apply N in I as [].
    + intros C. elim C. apply X. exact E.
    + intros _. unfold current_header. fold d. rewrite D3 in E. rewrite E. destruct h; reflexivity.
  - split; [split|].
    + intros _ C. apply E. apply X. exact C.
    + intros _. rewrite !in_app_iff. right. right. right. right. now left.
    + intros C. elim C. rewrite !in_app_iff. right. right. right. right. now left.
Qed.
