(* UtilMeta.v -- bpak_meta_to_string *)
From Coq Require Import Lia String Ascii.
From Verif Require Import Base BaseLemmas HeaderModel HeaderSpec CrcModel UtilModel UtilSpec UtilProofs UtilParse.
Local Open Scope Z_scope.
Local Open Scope list_scope.

Lemma hexd_cases upper d : 0 <= d < 16 -> 48 <= hexd upper d <= 57 \/ (if upper then 65 <= hexd upper d <= 70 else 97 <= hexd upper d <= 102).
Proof. intros H. unfold hexd. destruct (Z.ltb_spec d 10), upper; lia. Qed.
Lemma hexd_48 upper d : 0 <= d < 16 -> d <> 0 -> hexd upper d <> 48.
Proof. intros H. unfold hexd. destruct (Z.ltb_spec d 10), upper; lia. Qed.
Definition hex_case (upper : bool) (s : bytes) : Prop :=
  forall c, In c s -> 48 <= c <= 57 \/ (if upper then 65 <= c <= 70 else 97 <= c <= 102).
Lemma hex_min_printed upper : forall fuel v, 0 <= v < 16 ^ Z.of_nat (S fuel) ->
  hex_num (hex_min upper (S fuel) v) v /\ hex_case upper (hex_min upper (S fuel) v) /\
  1 <= zlen (hex_min upper (S fuel) v) <= Z.of_nat (S fuel) /\
  (v <> 0 -> hd 0 (hex_min upper (S fuel) v) <> 48) /\ (16 <= v -> 1 < zlen (hex_min upper (S fuel) v)) /\
  (v < 16 -> zlen (hex_min upper (S fuel) v) = 1).
Proof.
  induction fuel as [|k IH]; intros v V.
  - change (16 ^ Z.of_nat 1) with 16 in V. cbn [hex_min]. destruct (Z.ltb_spec v 16); [|lia]. cbn [app].
    replace (v mod 16) with v by lia.
    split; [|split; [|split; [|split; [|split]]]].
    + change [hexd upper v] with ([] ++ [hexd upper v]). replace v with (16 * 0 + v) at 2 by lia.
      constructor; [constructor|apply hexd_digit; lia].
    + intros c [<-|[]]. apply hexd_cases. lia.
    + change (zlen [hexd upper v]) with 1. lia.
    + intros N. cbn. apply hexd_48; lia.
    + lia.
    + reflexivity.
  - remember (S k) as f eqn:F.
    cbn [hex_min]. destruct (Z.ltb_spec v 16).
    + cbn [app]. replace (v mod 16) with v by lia.
      split; [|split; [|split; [|split; [|split]]]].
      * change [hexd upper v] with ([] ++ [hexd upper v]). replace v with (16 * 0 + v) at 2 by lia.
        constructor; [constructor|apply hexd_digit; lia].
      * intros c [<-|[]]. apply hexd_cases. lia.
      * change (zlen [hexd upper v]) with 1. lia.
      * intros N. cbn. apply hexd_48; lia.
      * lia.
      * reflexivity.
    + assert (V2 : 0 <= v / 16 < 16 ^ Z.of_nat f).
      { split; [apply Z.div_pos; lia|]. apply Z.div_lt_upper_bound; [lia|].
        replace (Z.of_nat (S f)) with (1 + Z.of_nat f) in V by lia. rewrite Z.pow_add_r in V by lia. lia. }
      specialize (IH (v / 16) V2). destruct IH as (A & B & C & D & E & G).
      assert (DV : v / 16 <> 0) by (assert (1 <= v / 16) by (apply Z.div_le_lower_bound; lia); lia).
      assert (MV : 0 <= v mod 16 < 16) by (apply Z.mod_pos_bound; lia).
      split; [|split; [|split; [|split; [|split]]]].
      * replace v with (16 * (v / 16) + v mod 16) at 3 by (pose proof (Z.div_mod v 16); lia).
        constructor; [exact A|apply hexd_digit; lia].
      * intros c I. apply in_app_iff in I. destruct I as [I|[<-|[]]]; [exact (B c I)|apply hexd_cases; lia].
      * rewrite zlen_app. change (zlen [hexd upper (v mod 16)]) with 1. lia.
      * intros _. destruct (hex_min upper f (v / 16)); [change (zlen (@nil Z)) with 0 in C; lia|]. cbn. apply D. exact DV.
      * intros _. rewrite zlen_app. change (zlen [hexd upper (v mod 16)]) with 1. lia.
      * lia.
Qed.
Lemma hex_case_lower s : hex_case false s -> lower_case s /\ ~ In 0 s.
Proof. intros H. split; [intros c I; destruct (H c I); lia|]. intros I. destruct (H 0 I); lia. Qed.
Lemma hex_case_upper s : hex_case true s -> upper_case s /\ ~ In 0 s.
Proof. intros H. split; [intros c I; destruct (H c I); lia|]. intros I. destruct (H 0 I); lia. Qed.
Lemma hex_num_zeros n s v : hex_num s v -> hex_num (repeat 48 n ++ s) v.
Proof.
  intros H. induction H as [|s v c d _ IH D].
  - rewrite app_nil_r. induction n as [|n IH]; [constructor|].
    replace (S n) with (n + 1)%nat by lia. rewrite repeat_app. cbn [repeat].
    change 0 with (16 * 0 + 0). constructor; [exact IH|]. unfold hex_digit. lia.
  - rewrite app_assoc. constructor; assumption.
Qed.
(* the result of %x, %8.8x, %08X on a value below 2^64 *)
Lemma hex_pad_printed upper w v : 1 <= w <= 16 -> 0 <= v < 2 ^ 64 ->
  printed upper w v (hex_pad upper w v) /\ ~ In 0 (hex_pad upper w v) /\ zlen (hex_pad upper w v) <= 16 /\
  (v < 16 ^ w -> zlen (hex_pad upper w v) = w).
Proof.
  intros W V. destruct (hex_min_printed upper 15 v V) as (A & B & C & D & _ & _).
  change (Z.of_nat 16) with 16 in C.
  unfold hex_pad. cbv zeta.
  assert (HC : hex_case upper (repeat 48 (Z.to_nat (w - zlen (hex_min upper 16 v))) ++ hex_min upper 16 v)).
  { intros c I. apply in_app_iff in I. destruct I as [I|I]; [apply repeat_spec in I; lia|exact (B c I)]. }
  assert (ZL : zlen (repeat 48 (Z.to_nat (w - zlen (hex_min upper 16 v))) ++ hex_min upper 16 v) = Z.max w (zlen (hex_min upper 16 v))).
  { rewrite zlen_app, zlen_repeat. lia. }
  split; [|split; [|split]].
  - split; [apply hex_num_zeros; exact A|]. split; [|split].
    + destruct upper; [apply hex_case_upper|apply hex_case_lower]; exact HC.
    + rewrite ZL. lia.
    + rewrite ZL. intros L. replace (Z.to_nat (w - zlen (hex_min upper 16 v))) with 0%nat by lia. cbn [repeat app].
      apply D. intros ->. change (zlen (hex_min upper 16 0)) with 1 in L. lia.
  - destruct upper; [apply hex_case_upper in HC|apply hex_case_lower in HC]; tauto.
  - rewrite ZL. lia.
  - intros VW. rewrite ZL.
    assert (zlen (hex_min upper 16 v) <= w); [|lia].
    destruct (hex_min_fix upper (Z.to_nat w - 1) 16 v ltac:(lia)) as [L _].
    { replace (Z.of_nat (S (Z.to_nat w - 1))) with w by lia. lia. }
    unfold zlen. lia.
Qed.
Lemma hex_min_pad upper v : 0 <= v < 2 ^ 64 -> hex_min upper 16 v = hex_pad upper 1 v.
Proof.
  intros V. destruct (hex_min_printed upper 15 v V) as (_ & _ & C & _).
  unfold hex_pad. cbv zeta. replace (Z.to_nat (1 - zlen (hex_min upper 16 v))) with 0%nat by lia. reflexivity.
Qed.
(* snprintf of a text that fits *)
Lemma snprintf_fits buf s : ~ In 0 s -> zlen s < zlen buf ->
  holds_string (snprintf buf s) s /\ zlen (snprintf buf s) = zlen buf.
Proof.
  intros N L. pose proof (zlen_nonneg s). unfold snprintf. destruct (Z.eqb_spec (zlen buf) 0); [lia|].
  rewrite ztake_all by lia. unfold splice. rewrite ztake_0. cbn [app]. rewrite zlen_app. change (zlen [0]) with 1.
  split.
  - split; [exact N|]. eexists. rewrite <- app_assoc. reflexivity.
  - rewrite !zlen_app, zlen_zdrop. change (zlen [0]) with 1. lia.
Qed.
(* and of one that does not: the first size - 1 characters *)
Lemma snprintf_cut buf s : ~ In 0 s -> 0 < zlen buf <= zlen s -> snprintf buf s = ztake (zlen buf - 1) s ++ [0].
Proof.
  intros N L. unfold snprintf. destruct (Z.eqb_spec (zlen buf) 0); [lia|]. unfold splice. rewrite ztake_0. cbn [app].
  rewrite zlen_app, zlen_ztake. change (zlen [0]) with 1. rewrite zdrop_all by lia. apply app_nil_r.
Qed.

Lemma holds_app buf s : ~ In 0 s -> holds_string (s ++ [0] ++ buf) s.
Proof. intros N. split; [exact N|]. eexists. reflexivity. Qed.
Lemma meta_read_in h i m o n :
  nth_error (h_meta h) i = Some m -> m_offset m + o + n <= METADATA_BYTES ->
  meta_read h i o n = Ok (slice (m_offset m + o) n (h_metadata h)).
Proof.
  intros E L. unfold meta_read. rewrite E. rewrite Z.gtb_ltb.
  destruct (Z.ltb_spec METADATA_BYTES (m_offset m + o + n)); [lia|reflexivity].
Qed.
Lemma no_zero_bytes_of s : forallb (fun c => negb (c =? 0)) (bytes_of s) = true -> ~ In 0 (bytes_of s).
Proof. intros H I. rewrite forallb_forall in H. specialize (H 0 I). discriminate H. Qed.
Lemma unle_lt n (d : bytes) : bytes_ok d -> zlen d = n -> 0 <= n <= 8 -> 0 <= unle d < 2 ^ 64 /\ (n <= 4 -> unle d < 2 ^ 32).
Proof.
  intros B L N. pose proof (unle_range d B) as R. rewrite L in R.
  assert (256 ^ n <= 256 ^ 8) by (apply Z.pow_le_mono_r; lia). change (256 ^ 8) with (2 ^ 64) in *.
  split; [lia|]. intros N4. assert (256 ^ n <= 256 ^ 4) by (apply Z.pow_le_mono_r; lia). change (256 ^ 4) with (2 ^ 32) in *. lia.
Qed.

Section MetaString.
Variables (h : header) (i : nat) (m : metah) (buf : bytes).
Hypothesis E : nth_error (h_meta h) i = Some m.
Hypothesis MB : bytes_ok (h_metadata h).
Hypothesis ML : zlen (h_metadata h) = METADATA_BYTES.
Hypothesis O : 0 <= m_offset m.
Hypothesis IN : m_offset m + m_size m <= METADATA_BYTES.
Hypothesis SZ : expected_size (m_id m) <= m_size m.
Hypothesis BL : 37 <= zlen buf.
Hypothesis BH : m_id m = ID_MERKLE_SALT \/ m_id m = ID_MERKLE_ROOT_HASH -> 65 <= zlen buf.
Hypothesis NV : m_id m <> ID_BPAK_VERSION.
Let d := zdrop (m_offset m) (h_metadata h).
Lemma rd_in o n : 0 <= o -> 0 <= n -> o + n <= m_size m ->
  meta_read h i o n = Ok (slice o n d) /\ bytes_ok (slice o n d) /\ zlen (slice o n d) = n.
Proof.
  intros Ho Hn L. rewrite (meta_read_in h i m o n E) by lia. unfold d.
  assert (S : slice o n (zdrop (m_offset m) (h_metadata h)) = slice (m_offset m + o) n (h_metadata h)).
  { unfold slice. rewrite zdrop_zdrop by lia. do 2 f_equal. lia. }
  rewrite S. split; [reflexivity|]. split; [apply bytes_ok_slice; exact MB|]. apply zlen_slice_in; lia.
Qed.
Lemma meta_to_string_fits : exists buf' s,
  meta_to_string h i buf = (buf', Ok tt) /\ holds_string buf' s /\ zlen buf' = zlen buf /\ entry_text (m_id m) d s.
Proof.
  pose proof rd_in as RD. unfold meta_to_string. rewrite E. cbv zeta.
  assert (ES : forall id n, m_id m = id -> expected_size id = n -> n <= m_size m) by (intros id n <- <-; exact SZ).
  destruct (Z.eqb_spec (m_id m) ID_BPAK_KEY_ID) as [K1|K1]; [|destruct (Z.eqb_spec (m_id m) ID_BPAK_KEY_STORE) as [K2|K2]]; cbn [orb].
  1,2: first [pose proof (ES _ 4 K1 eq_refl)|pose proof (ES _ 4 K2 eq_refl)]; destruct (RD 0 4 ltac:(lia) ltac:(lia) ltac:(lia)) as (-> & B & L); cbn [with_bytes];
    destruct (unle_lt 4 _ B L ltac:(lia)) as [U _]; rewrite hex_min_pad by exact U;
    destruct (hex_pad_printed false 1 _ ltac:(lia) U) as (P & N & Q & _);
    destruct (snprintf_fits buf _ N ltac:(lia)) as [S1 S2]; do 2 eexists; split; [reflexivity|];
    split; [exact S1|]; split; [exact S2|]; first [rewrite K1|rewrite K2]; constructor; exact P.
  destruct (Z.eqb_spec (m_id m) ID_BPAK_PACKAGE) as [K3|K3].
  { pose proof (ES _ 16 K3 eq_refl). destruct (RD 0 16 ltac:(lia) ltac:(lia) ltac:(lia)) as (-> & B & L). cbn [with_bytes].
    destruct (to_string_exact _ buf L B) as [_ T]. rewrite (T ltac:(lia)). cbn [drop_result].
    do 2 eexists. split; [reflexivity|]. split; [apply holds_app; apply not_zero_unparse; assumption|].
    split; [rewrite !zlen_app, unparse_len, zlen_zdrop by assumption; change (zlen [0]) with 1; lia|].
    rewrite K3. constructor; [apply unparse_text; assumption|].
    intros c I. destruct (unparse_case false _ c L B I) as [|[|]]; lia. }
  destruct (Z.eqb_spec (m_id m) ID_BPAK_TRANSPORT) as [K4|K4].
  { pose proof (ES _ 8 K4 eq_refl). destruct (RD 0 4 ltac:(lia) ltac:(lia) ltac:(lia)) as (-> & B & L). cbn [with_bytes].
    destruct (RD 4 4 ltac:(lia) ltac:(lia) ltac:(lia)) as (-> & B' & L'). cbn [with_bytes].
    destruct (unle_lt 4 _ B L ltac:(lia)) as [U V]. destruct (unle_lt 4 _ B' L' ltac:(lia)) as [U' V'].
    destruct (hex_pad_printed false 8 _ ltac:(lia) U) as (P & N & _ & Q).
    destruct (hex_pad_printed false 8 _ ltac:(lia) U') as (P' & N' & _ & Q').
    specialize (Q (V ltac:(lia))). specialize (Q' (V' ltac:(lia))).
    match goal with |- context [snprintf buf ?s] => destruct (snprintf_fits buf s) as [S1 S2] end.
    - rewrite !in_app_iff. intros [I|[I|[I|I]]]; try contradiction; revert I; apply no_zero_bytes_of; reflexivity.
    - rewrite !zlen_app. change (zlen (bytes_of "Encode: ")) with 8. change (zlen (bytes_of ", Decode: ")) with 10. lia.
    - do 2 eexists. split; [reflexivity|]. split; [exact S1|]. split; [exact S2|]. rewrite K4. constructor; assumption. }
  destruct (Z.eqb_spec (m_id m) ID_MERKLE_SALT) as [K5|K5]; [|destruct (Z.eqb_spec (m_id m) ID_MERKLE_ROOT_HASH) as [K6|K6]]; cbn [orb].
  1,2: first [pose proof (ES _ 32 K5 eq_refl); pose proof (BH (or_introl K5))|pose proof (ES _ 32 K6 eq_refl); pose proof (BH (or_intror K6))]; destruct (RD 0 32 ltac:(lia) ltac:(lia) ltac:(lia)) as (-> & B & L); cbn [with_bytes];
    rewrite (bin2hex_fits (slice 0 32 d) buf) by lia; cbn [drop_result]; do 2 eexists; split; [reflexivity|];
    split; [apply holds_app; intros I; apply hex2_chars in I; lia|];
    split; [rewrite !zlen_app, hex2_len, zlen_zdrop; change (zlen [0]) with 1; lia|];
    first [rewrite K5|rewrite K6]; constructor; [apply hex2_text; exact B|intros c I; apply hex2_chars in I; lia].
  destruct (Z.eqb_spec (m_id m) ID_PB_LOAD_ADDR) as [K7|K7].
  { pose proof (ES _ 8 K7 eq_refl). destruct (RD 0 8 ltac:(lia) ltac:(lia) ltac:(lia)) as (-> & B & L). cbn [with_bytes].
    destruct (unle_lt 8 _ B L ltac:(lia)) as [U _].
    destruct (hex_pad_printed true 8 _ ltac:(lia) U) as (P & N & Q & _).
    match goal with |- context [snprintf buf ?s] => destruct (snprintf_fits buf s) as [S1 S2] end.
    - rewrite !in_app_iff. intros [I|I]; try contradiction; revert I; apply no_zero_bytes_of; reflexivity.
    - rewrite !zlen_app. change (zlen (bytes_of "Entry: 0x")) with 9. lia.
    - do 2 eexists. split; [reflexivity|]. split; [exact S1|]. split; [exact S2|]. rewrite K7. constructor; assumption. }
  destruct (Z.eqb_spec (m_id m) ID_BPAK_VERSION) as [K8|K8]; [contradiction|].
  destruct (Z.eqb_spec (m_id m) ID_KEYSTORE_PROVIDER_ID) as [K9|K9].
  { pose proof (ES _ 4 K9 eq_refl). destruct (RD 0 4 ltac:(lia) ltac:(lia) ltac:(lia)) as (-> & B & L). cbn [with_bytes].
    destruct (unle_lt 4 _ B L ltac:(lia)) as [U _]. rewrite hex_min_pad by exact U.
    destruct (hex_pad_printed false 1 _ ltac:(lia) U) as (P & N & Q & _).
    match goal with |- context [snprintf buf ?s] => destruct (snprintf_fits buf s) as [S1 S2] end.
    - rewrite !in_app_iff. intros [I|I]; try contradiction; revert I; apply no_zero_bytes_of; reflexivity.
    - rewrite !zlen_app. change (zlen (bytes_of "0x")) with 2. lia.
    - do 2 eexists. split; [reflexivity|]. split; [exact S1|]. split; [exact S2|]. rewrite K9. constructor; assumption. }
  destruct (Z.eqb_spec (zlen buf) 0); [lia|].
  do 2 eexists. split; [reflexivity|]. clear BH. destruct buf as [|b0 r] eqn:EB; [change (zlen (@nil Z)) with 0 in BL; lia|].
  change (splice 0 [0] (b0 :: r)) with ([] ++ [0] ++ r).
  split; [apply holds_app; intros []|]. split; [reflexivity|]. constructor; assumption.
Qed.
End MetaString.

Lemma version_exact h i m buf :
  nth_error (h_meta h) i = Some m -> m_id m = ID_BPAK_VERSION ->
  zlen (h_metadata h) = METADATA_BYTES -> 0 <= m_offset m -> 0 <= m_size m -> m_offset m + m_size m <= METADATA_BYTES ->
  (zlen buf < m_size m -> meta_to_string h i buf = (buf, Err E_SIZE_ERROR)) /\
  (m_size m <= zlen buf -> meta_to_string h i buf =
     (slice (m_offset m) (m_size m) (h_metadata h) ++ zdrop (m_size m) buf, Ok tt)).
Proof.
  intros E V ML O S IN. unfold meta_to_string. rewrite E. cbv zeta. rewrite V.
  change (ID_BPAK_VERSION =? ID_BPAK_KEY_ID) with false. change (ID_BPAK_VERSION =? ID_BPAK_KEY_STORE) with false.
  change (ID_BPAK_VERSION =? ID_BPAK_PACKAGE) with false. change (ID_BPAK_VERSION =? ID_BPAK_TRANSPORT) with false.
  change (ID_BPAK_VERSION =? ID_MERKLE_SALT) with false. change (ID_BPAK_VERSION =? ID_MERKLE_ROOT_HASH) with false.
  change (ID_BPAK_VERSION =? ID_PB_LOAD_ADDR) with false. change (ID_BPAK_VERSION =? ID_BPAK_VERSION) with true.
  cbn [orb]. rewrite Z.gtb_ltb. split; intros H.
  - destruct (Z.ltb_spec (zlen buf) (m_size m)); [reflexivity|lia].
  - destruct (Z.ltb_spec (zlen buf) (m_size m)); [lia|].
    rewrite (meta_read_in h i m 0 (m_size m) E) by lia. cbn [with_bytes]. rewrite Z.add_0_r.
    unfold splice. rewrite ztake_0. cbn [app]. rewrite zlen_slice_in by lia. reflexivity.
Qed.
(* a salt or root hash and a buffer below 65 bytes *)
Lemma salt_overflow h i m buf :
  nth_error (h_meta h) i = Some m -> m_id m = ID_MERKLE_SALT \/ m_id m = ID_MERKLE_ROOT_HASH ->
  zlen (h_metadata h) = METADATA_BYTES -> 0 <= m_offset m -> m_offset m + 32 <= METADATA_BYTES -> zlen buf < 65 ->
  snd (meta_to_string h i buf) = UB.
Proof.
  intros E V ML O IN B. unfold meta_to_string. rewrite E. cbv zeta.
  assert (L : zlen (slice (m_offset m) 32 (h_metadata h)) = 32) by (apply zlen_slice_in; lia).
  rewrite (meta_read_in h i m 0 32 E) by lia. cbn [with_bytes]. rewrite Z.add_0_r.
  pose proof (bin2hex_overflows (slice (m_offset m) 32 (h_metadata h)) buf ltac:(lia)) as U.
  destruct (bin2hex (slice (m_offset m) 32 (h_metadata h)) buf) as [b r]. cbn [snd] in U. subst r.
  destruct V as [-> | ->].
  - change (ID_MERKLE_SALT =? ID_BPAK_KEY_ID) with false. change (ID_MERKLE_SALT =? ID_BPAK_KEY_STORE) with false.
    change (ID_MERKLE_SALT =? ID_BPAK_PACKAGE) with false. change (ID_MERKLE_SALT =? ID_BPAK_TRANSPORT) with false.
    change (ID_MERKLE_SALT =? ID_MERKLE_SALT) with true. reflexivity.
  - change (ID_MERKLE_ROOT_HASH =? ID_BPAK_KEY_ID) with false. change (ID_MERKLE_ROOT_HASH =? ID_BPAK_KEY_STORE) with false.
    change (ID_MERKLE_ROOT_HASH =? ID_BPAK_PACKAGE) with false. change (ID_MERKLE_ROOT_HASH =? ID_BPAK_TRANSPORT) with false.
    change (ID_MERKLE_ROOT_HASH =? ID_MERKLE_SALT) with false. change (ID_MERKLE_ROOT_HASH =? ID_MERKLE_ROOT_HASH) with true. reflexivity.
Qed.
