(* CodecProofs.v -- struct layout: serialisation round trips *)
From Verif Require Import BaseLemmas HeaderModel HeaderSpec.

Lemma zlen_enc_meta m : wf_meta m -> zlen (enc_meta m) = 16.
Proof. intros (_&_&_&_&H&_). unfold enc_meta. zlia. Qed.
Lemma zlen_enc_part p : zlen (enc_part p) = 32.
Proof. unfold enc_part. zlia. Qed.
Lemma bytes_ok_enc_meta m : wf_meta m -> bytes_ok (enc_meta m).
Proof.
  intros (_&_&_&_&_&H). unfold enc_meta.
  rewrite !bytes_ok_app. repeat split; auto using bytes_ok_le.
Qed.
Lemma bytes_ok_enc_part p : wf_part p -> bytes_ok (enc_part p).
Proof.
  intros (_&_&_&_&_&Hf&Hp). unfold enc_part.
  rewrite !bytes_ok_app. repeat split; auto using bytes_ok_le;
  (constructor; [red; lia | constructor]).
Qed.

Lemma slice_skip {A} o n (a b : list A) : zlen a <= o -> slice o n (a ++ b) = slice (o - zlen a) n b.
Proof. apply slice_app_r. Qed.
Lemma slice_here {A} n (a b : list A) : n = zlen a -> slice 0 n (a ++ b) = a.
Proof. intros ->. rewrite slice_0, ztake_app_l by lia. apply ztake_all; lia. Qed.

Ltac unle_tac :=
  match goal with
  | |- unle (le _ _) = _ => apply unle_le; cbn; lia
  | |- _ => idtac
  end.

Ltac skip_field := rewrite slice_skip by zlia; zl.
Ltac at0 := match goal with |- context [slice ?o _ _] => replace o with 0 by lia end.

Lemma dec_enc_meta m : wf_meta m -> dec_meta (enc_meta m) = m.
Proof.
  intros (H1&H2&H3&H4&H5&H6). destruct m as [id sz off ref pad];
  cbn [m_id m_size m_offset m_ref m_pad] in *.
  unfold dec_meta, enc_meta; cbn [m_id m_size m_offset m_ref m_pad].
  f_equal.
  - rewrite slice_here by zlia. apply unle_le; cbn; lia.
  - do 1 skip_field. at0. rewrite slice_here by zlia. apply unle_le; cbn; lia.
  - do 2 skip_field. at0. rewrite slice_here by zlia. apply unle_le; cbn; lia.
  - do 3 skip_field. at0. rewrite slice_here by zlia. apply unle_le; cbn; lia.
  - do 4 skip_field. at0. apply slice_full. lia.
Qed.
Lemma dec_enc_part p : wf_part p -> dec_part (enc_part p) = p.
Proof.
  intros (H1&H2&H3&H4&H5&H6&H7). destruct p as [id sz off ts pb fl pd];
  cbn [p_id p_size p_offset p_transport_size p_pad_bytes p_flags p_pad] in *.
  unfold dec_part, enc_part; cbn [p_id p_size p_offset p_transport_size p_pad_bytes p_flags p_pad].
  f_equal.
  - rewrite slice_here by zlia. apply unle_le; cbn; lia.
  - do 1 skip_field. at0. rewrite slice_here by zlia. apply unle_le; cbn; lia.
  - do 2 skip_field. at0. rewrite slice_here by zlia. apply unle_le; cbn; lia.
  - do 3 skip_field. at0. rewrite slice_here by zlia. apply unle_le; cbn; lia.
  - do 4 skip_field. at0. rewrite slice_here by zlia. apply unle_le; cbn; lia.
  - do 5 skip_field. at0. rewrite slice_here by zlia. cbn; lia.
  - do 6 skip_field. at0. rewrite slice_full by zlia. cbn; lia.
Qed.

Lemma zlen_flat_map {A} (f : A -> bytes) sz l :
  (forall x, In x l -> zlen (f x) = sz) -> zlen (flat_map f l) = sz * zlen l.
Proof.
  induction l as [|x l IH]; intros H; cbn [flat_map].
  - cbn. lia.
  - rewrite zlen_app, zlen_cons, H, IH; [lia| |now left]. intros y Hy; apply H; now right.
Qed.
Lemma dec_array_flat_map {A} (f : A -> bytes) (g : bytes -> A) sz l :
  0 <= sz -> (forall x, In x l -> zlen (f x) = sz /\ g (f x) = x) ->
  dec_array g sz (length l) (flat_map f l) = l.
Proof.
  intros Hsz. induction l as [|x l IH]; intros H; [reflexivity|].
  cbn [length dec_array flat_map]. destruct (H x (or_introl eq_refl)) as [Hl Hg].
  rewrite slice_here by auto. rewrite zdrop_app_r by lia. rewrite Hl, Z.sub_diag, zdrop_0, Hg.
  f_equal. apply IH. intros y Hy; apply H; now right.
Qed.
Lemma flat_map_dec_array {A} (f : A -> bytes) (g : bytes -> A) sz n b :
  0 <= sz -> zlen b = sz * Z.of_nat n -> bytes_ok b ->
  (forall c, zlen c = sz -> bytes_ok c -> f (g c) = c) ->
  flat_map f (dec_array g sz n b) = b.
Proof.
  intros Hsz Hlen Hok H. revert b Hlen Hok. induction n as [|n IH]; intros b Hlen Hok.
  - cbn. symmetry. apply zlen_0_nil. lia.
  - cbn [dec_array flat_map]. rewrite H; [| rewrite zlen_slice; lia | now apply bytes_ok_slice].
    rewrite IH; [apply ztake_zdrop | rewrite zlen_zdrop; lia | now apply bytes_ok_zdrop].
Qed.
Lemma length_dec_array {A} (g : bytes -> A) sz n b : length (dec_array g sz n b) = n.
Proof. revert b; induction n; cbn; auto. Qed.

Lemma bytes_eq_ok b : bytes_ok b -> zlen b = 1 -> [unle b] = b.
Proof.
  intros H E. destruct b as [|x [|y r]].
  - discriminate.
  - cbn. do 2 f_equal. lia.
  - rewrite !zlen_cons in E. pose proof (zlen_nonneg r). lia.
Qed.

Lemma enc_dec_meta b : zlen b = 16 -> bytes_ok b -> enc_meta (dec_meta b) = b.
Proof.
  intros Hl Hok. unfold enc_meta, dec_meta; cbn [m_id m_size m_offset m_ref m_pad].
  rewrite !le_unle' by (rewrite ?zlen_slice; try lia; now apply bytes_ok_slice).
  rewrite <- (slice_full 16 b) at 6 by lia.
  change 16 with (4 + (2 + (2 + (4 + 4)))).
  rewrite !slice_split by lia. reflexivity.
Qed.
Lemma enc_dec_part b : zlen b = 32 -> bytes_ok b -> enc_part (dec_part b) = b.
Proof.
  intros Hl Hok. unfold enc_part, dec_part.
  cbn [p_id p_size p_offset p_transport_size p_pad_bytes p_flags p_pad].
  rewrite !le_unle' by (rewrite ?zlen_slice; try lia; now apply bytes_ok_slice).
  rewrite !bytes_eq_ok by (rewrite ?zlen_slice; try lia; now apply bytes_ok_slice).
  rewrite <- (slice_full 32 b) at 8 by lia.
  change 32 with (4 + (8 + (8 + (8 + (2 + (1 + 1)))))).
  rewrite !slice_split by lia. reflexivity.
Qed.

Lemma zlen_of_length {A} (l : list A) n : length l = n -> zlen l = Z.of_nat n.
Proof. unfold zlen. now intros ->. Qed.

Lemma zlen_flat_meta h : wf_header h -> zlen (flat_map enc_meta (h_meta h)) = 512.
Proof.
  intros W. destruct (wf_metas _ W) as [Hl Hm].
  rewrite zlen_flat_map with (sz := 16).
  - rewrite (zlen_of_length _ _ Hl). reflexivity.
  - intros x Hx. apply zlen_enc_meta. rewrite Forall_forall in Hm. auto.
Qed.
Lemma zlen_flat_part h : wf_header h -> zlen (flat_map enc_part (h_parts h)) = 1024.
Proof.
  intros W. destruct (wf_parts _ W) as [Hl Hm].
  rewrite zlen_flat_map with (sz := 32).
  - rewrite (zlen_of_length _ _ Hl). reflexivity.
  - intros x Hx. apply zlen_enc_part.
Qed.

Lemma zlen_enc_header h : wf_header h -> zlen (enc_header h) = 4096.
Proof.
  intros W. pose proof (zlen_flat_meta h W). pose proof (zlen_flat_part h W).
  destruct (wf_pad0 _ W), (wf_metadata _ W), (wf_payload_hash _ W), (wf_pad1 _ W), (wf_signature _ W).
  unfold enc_header. zlia.
Qed.
Lemma bytes_ok_enc_header h : wf_header h -> bytes_ok (enc_header h).
Proof.
  intros W.
  destruct (wf_pad0 _ W), (wf_metadata _ W), (wf_payload_hash _ W), (wf_pad1 _ W), (wf_signature _ W),
    (wf_metas _ W) as [_ Hm], (wf_parts _ W) as [_ Hp].
  pose proof (wf_hash_kind _ W). pose proof (wf_signature_kind _ W).
  unfold enc_header. rewrite !bytes_ok_app. repeat split; auto using bytes_ok_le.
  - apply Forall_flat_map. eapply Forall_impl; [|exact Hm]. apply bytes_ok_enc_meta.
  - apply Forall_flat_map. eapply Forall_impl; [|exact Hp]. apply bytes_ok_enc_part.
  - constructor; [red; lia|constructor].
  - constructor; [red; lia|constructor].
Qed.

(* the i-th field of a concatenation sits after the preceding fields *)
Lemma slice_concat (cs : list bytes) (ls : list Z) i c o n :
  map zlen cs = ls -> nth_error cs i = Some c -> o = fold_right Z.add 0 (firstn i ls) ->
  n = zlen c -> slice o n (concat cs) = c.
Proof.
  intros <-. revert i o. induction cs as [|d cs IH]; intros i o Hi -> ->; [destruct i; discriminate|].
  destruct i as [|i]; cbn [nth_error] in Hi.
  - injection Hi as ->. cbn [concat firstn map fold_right]. now apply slice_here.
  - cbn [concat firstn map fold_right]. pose proof (zlen_nonneg d).
    assert (0 <= fold_right Z.add 0 (firstn i (map zlen cs))).
    { clear. revert i; induction cs as [|e cs IH]; intros [|i]; cbn [map firstn fold_right]; try lia.
      pose proof (zlen_nonneg e). specialize (IH i). lia. }
    rewrite slice_app_r by lia. apply IH with (i := i); auto. lia.
Qed.

Definition header_chunks (h : header) : list bytes :=
  [ le 4 (h_magic h); h_pad0 h; flat_map enc_meta (h_meta h);
    flat_map enc_part (h_parts h); h_metadata h;
    [h_hash_kind h]; [h_signature_kind h]; le 2 (h_alignment h);
    h_payload_hash h; le 4 (h_key_id h); le 4 (h_keystore_id h);
    h_pad1 h; h_signature h; le 2 (h_signature_sz h) ].
Definition header_lens : list Z := [4;4;512;1024;1920;1;1;2;64;4;4;42;512;2].
Lemma header_chunks_concat h : enc_header h = concat (header_chunks h).
Proof. unfold enc_header, header_chunks. cbn [concat]. now rewrite app_nil_r. Qed.
Lemma header_chunks_lens h : wf_header h -> map zlen (header_chunks h) = header_lens.
Proof.
  intros W. unfold header_chunks. cbn [map].
  rewrite (zlen_flat_meta h W), (zlen_flat_part h W), !zlen_le,
    (proj1 (wf_pad0 _ W)), (proj1 (wf_metadata _ W)), (proj1 (wf_payload_hash _ W)),
    (proj1 (wf_pad1 _ W)), (proj1 (wf_signature _ W)). reflexivity.
Qed.
Lemma header_slice h i c o n : wf_header h ->
  nth_error (header_chunks h) i = Some c -> o = fold_right Z.add 0 (firstn i header_lens) ->
  nth_error header_lens i = Some n -> slice o n (enc_header h) = c.
Proof.
  intros W Hc Ho Hn. rewrite header_chunks_concat.
  pose proof (header_chunks_lens h W) as L.
  apply slice_concat with (ls := header_lens) (i := i); auto.
  pose proof (map_nth_error zlen _ _ Hc) as E. rewrite L in E. congruence.
Qed.

Lemma dec_enc_header h : wf_header h -> dec_header (enc_header h) = h.
Proof.
  intros W.
  unfold dec_header.
  rewrite (header_slice h 0 _ 0 4 W eq_refl eq_refl eq_refl).
  rewrite (header_slice h 1 _ 4 4 W eq_refl eq_refl eq_refl).
  rewrite (header_slice h 2 _ 8 512 W eq_refl eq_refl eq_refl).
  rewrite (header_slice h 3 _ 520 1024 W eq_refl eq_refl eq_refl).
  rewrite (header_slice h 4 _ 1544 1920 W eq_refl eq_refl eq_refl).
  rewrite (header_slice h 5 _ 3464 1 W eq_refl eq_refl eq_refl).
  rewrite (header_slice h 6 _ 3465 1 W eq_refl eq_refl eq_refl).
  rewrite (header_slice h 7 _ 3466 2 W eq_refl eq_refl eq_refl).
  rewrite (header_slice h 8 _ 3468 64 W eq_refl eq_refl eq_refl).
  rewrite (header_slice h 9 _ 3532 4 W eq_refl eq_refl eq_refl).
  rewrite (header_slice h 10 _ 3536 4 W eq_refl eq_refl eq_refl).
  rewrite (header_slice h 11 _ 3540 42 W eq_refl eq_refl eq_refl).
  rewrite (header_slice h 12 _ 3582 512 W eq_refl eq_refl eq_refl).
  rewrite (header_slice h 13 _ 4094 2 W eq_refl eq_refl eq_refl).
  pose proof (wf_hash_kind _ W). pose proof (wf_signature_kind _ W). pose proof (wf_magic _ W).
  pose proof (wf_alignment _ W). pose proof (wf_key_id _ W). pose proof (wf_keystore_id _ W).
  pose proof (wf_signature_sz _ W).
  rewrite !unle_le by (cbn; lia).
  destruct (wf_metas _ W) as [Hml Hm], (wf_parts _ W) as [Hpl Hp].
  replace (dec_array dec_meta 16 MAX_META (flat_map enc_meta (h_meta h))) with (h_meta h).
  2:{ symmetry. unfold MAX_META. rewrite <- Hml. apply (dec_array_flat_map enc_meta dec_meta 16); [lia|].
      intros x Hx. rewrite Forall_forall in Hm. split; [now apply zlen_enc_meta, Hm|now apply dec_enc_meta, Hm]. }
  replace (dec_array dec_part 32 MAX_PARTS (flat_map enc_part (h_parts h))) with (h_parts h).
  2:{ symmetry. unfold MAX_PARTS. rewrite <- Hpl. apply (dec_array_flat_map enc_part dec_part 32); [lia|].
      intros x Hx. rewrite Forall_forall in Hp. split; [apply zlen_enc_part|now apply dec_enc_part, Hp]. }
  unfold unle. rewrite !Z.mul_0_r, !Z.add_0_r.
  destruct h; reflexivity.
Qed.

Lemma enc_dec_header b : zlen b = 4096 -> bytes_ok b -> enc_header (dec_header b) = b.
Proof.
  intros Hl Hok. unfold enc_header, dec_header.
  cbn [h_magic h_pad0 h_meta h_parts h_metadata h_hash_kind h_signature_kind h_alignment
         h_payload_hash h_key_id h_keystore_id h_pad1 h_signature h_signature_sz].
  rewrite !le_unle' by (rewrite ?zlen_slice; try lia; now apply bytes_ok_slice).
  rewrite !bytes_eq_ok by (rewrite ?zlen_slice; try lia; now apply bytes_ok_slice).
  rewrite (flat_map_dec_array enc_meta dec_meta 16 MAX_META);
    [| lia | rewrite zlen_slice; cbn; lia | now apply bytes_ok_slice | intros; now apply enc_dec_meta].
  rewrite (flat_map_dec_array enc_part dec_part 32 MAX_PARTS);
    [| lia | rewrite zlen_slice; cbn; lia | now apply bytes_ok_slice | intros; now apply enc_dec_part].
  transitivity (slice 0 4096 b); [|apply slice_full; lia].
  change 4096 with (4 + (4 + (512 + (1024 + (1920 + (1 + (1 + (2 + (64 + (4 + (4 + (42 + (512 + 2))))))))))))).
  rewrite !slice_split by lia. reflexivity.
Qed.

Lemma unle_slice_range b o n : bytes_ok b -> 0 <= n -> 0 <= unle (slice o n b) < 256 ^ n.
Proof.
  intros Hok Hn. pose proof (unle_range (slice o n b) (bytes_ok_slice _ _ _ Hok)) as [H1 H2].
  split; [lia|]. eapply Z.lt_le_trans; [exact H2|]. apply Z.pow_le_mono_r; [lia|].
  rewrite zlen_slice. lia.
Qed.
Lemma wf_dec_meta b : zlen b = 16 -> bytes_ok b -> wf_meta (dec_meta b).
Proof.
  intros Hl Hok. unfold wf_meta, dec_meta; cbn [m_id m_size m_offset m_ref m_pad].
  pose proof (unle_slice_range b 0 4 Hok). pose proof (unle_slice_range b 4 2 Hok).
  pose proof (unle_slice_range b 6 2 Hok). pose proof (unle_slice_range b 8 4 Hok).
  change (256^4) with (2^32) in *. change (256^2) with (2^16) in *.
  rewrite zlen_slice. repeat split; try lia. now apply bytes_ok_slice.
Qed.
Lemma wf_dec_part b : zlen b = 32 -> bytes_ok b -> wf_part (dec_part b).
Proof.
  intros Hl Hok. unfold wf_part, dec_part.
  cbn [p_id p_size p_offset p_transport_size p_pad_bytes p_flags p_pad].
  pose proof (unle_slice_range b 0 4 Hok). pose proof (unle_slice_range b 4 8 Hok).
  pose proof (unle_slice_range b 12 8 Hok). pose proof (unle_slice_range b 20 8 Hok).
  pose proof (unle_slice_range b 28 2 Hok). pose proof (unle_slice_range b 30 1 Hok).
  pose proof (unle_slice_range b 31 1 Hok).
  change (256^4) with (2^32) in *. change (256^2) with (2^16) in *.
  change (256^8) with (2^64) in *. change (256^1) with (2^8) in *.
  repeat split; lia.
Qed.
Lemma Forall_dec_array {A} (P : A -> Prop) (g : bytes -> A) sz n b :
  0 <= sz -> zlen b = sz * Z.of_nat n -> bytes_ok b ->
  (forall c, zlen c = sz -> bytes_ok c -> P (g c)) -> Forall P (dec_array g sz n b).
Proof.
  intros Hsz Hlen Hok H. revert b Hlen Hok; induction n as [|n IH]; intros b Hlen Hok; cbn [dec_array]; constructor.
  - apply H; [rewrite zlen_slice; lia | now apply bytes_ok_slice].
  - apply IH; [rewrite zlen_zdrop; lia | now apply bytes_ok_zdrop].
Qed.
Lemma wf_dec_header b : zlen b = 4096 -> bytes_ok b -> wf_header (dec_header b).
Proof.
  intros Hl Hok. unfold dec_header.
  constructor;
    cbn [h_magic h_pad0 h_meta h_parts h_metadata h_hash_kind h_signature_kind h_alignment
         h_payload_hash h_key_id h_keystore_id h_pad1 h_signature h_signature_sz];
    rewrite ?zlen_slice; try (split; [lia | now apply bytes_ok_slice]).
  - apply (unle_slice_range b 0 4 Hok); lia.
  - split; [apply length_dec_array|].
    apply (Forall_dec_array wf_meta dec_meta 16); [lia | rewrite zlen_slice; cbn; lia | now apply bytes_ok_slice |].
    intros; now apply wf_dec_meta.
  - split; [apply length_dec_array|].
    apply (Forall_dec_array wf_part dec_part 32); [lia | rewrite zlen_slice; cbn; lia | now apply bytes_ok_slice |].
    intros; now apply wf_dec_part.
  - apply (unle_slice_range b 3464 1 Hok); lia.
  - apply (unle_slice_range b 3465 1 Hok); lia.
  - apply (unle_slice_range b 3466 2 Hok); lia.
  - apply (unle_slice_range b 3532 4 Hok); lia.
  - apply (unle_slice_range b 3536 4 Hok); lia.
  - apply (unle_slice_range b 4094 2 Hok); lia.
Qed.

Lemma enc_header_inj h1 h2 : wf_header h1 -> wf_header h2 -> enc_header h1 = enc_header h2 -> h1 = h2.
Proof. intros W1 W2 E. rewrite <- (dec_enc_header h1 W1), <- (dec_enc_header h2 W2). now rewrite E. Qed.

Lemma dec_array_nth {A} (g : bytes -> A) sz n b i x :
  0 <= sz -> nth_error (dec_array g sz n b) i = Some x -> x = g (slice (sz * Z.of_nat i) sz b).
Proof.
  intros Hsz. revert b i; induction n as [|n IH]; intros b i; [destruct i; discriminate|].
  cbn [dec_array]. destruct i as [|i]; cbn [nth_error].
  - intros [= <-]. f_equal. f_equal. lia.
  - intros H. apply IH in H. rewrite H. f_equal. unfold slice.
    rewrite zdrop_zdrop by lia. f_equal. f_equal. lia.
Qed.
(* the i-th table entries sit at their documented byte offsets *)
Lemma header_meta_at h i m : wf_header h -> nth_error (h_meta h) i = Some m ->
  slice (doc_meta_start i) 16 (enc_header h) = enc_meta m.
Proof.
  intros W Hi. pose proof (zlen_enc_header h W) as L. pose proof (bytes_ok_enc_header h W) as Ok.
  assert (Hlt : (i < 32)%nat) by (destruct (wf_metas _ W) as [<- _]; apply nth_error_Some; congruence).
  pose proof (dec_enc_header h W) as E. rewrite <- E in Hi. unfold dec_header in Hi; cbn [h_meta] in Hi.
  apply dec_array_nth in Hi; [|lia]. rewrite slice_slice in Hi by lia.
  rewrite Hi, enc_dec_meta; [unfold doc_meta_start; f_equal; lia | |now apply bytes_ok_slice].
  rewrite zlen_slice. lia.
Qed.
Lemma header_part_at h i p : wf_header h -> nth_error (h_parts h) i = Some p ->
  slice (doc_part_start i) 32 (enc_header h) = enc_part p.
Proof.
  intros W Hi. pose proof (zlen_enc_header h W) as L. pose proof (bytes_ok_enc_header h W) as Ok.
  assert (Hlt : (i < 32)%nat) by (destruct (wf_parts _ W) as [<- _]; apply nth_error_Some; congruence).
  pose proof (dec_enc_header h W) as E. rewrite <- E in Hi. unfold dec_header in Hi; cbn [h_parts] in Hi.
  apply dec_array_nth in Hi; [|lia]. rewrite slice_slice in Hi by lia.
  rewrite Hi, enc_dec_part; [unfold doc_part_start; f_equal; lia | |now apply bytes_ok_slice].
  rewrite zlen_slice. lia.
Qed.
Lemma header_fixed_at h : wf_header h ->
  let b := enc_header h in
  slice 0 4 b = le 4 (h_magic h) /\ slice 1544 1920 b = h_metadata h /\
  slice 3464 1 b = [h_hash_kind h] /\ slice 3465 1 b = [h_signature_kind h] /\
  slice 3466 2 b = le 2 (h_alignment h) /\ slice 3468 64 b = h_payload_hash h /\
  slice 3532 4 b = le 4 (h_key_id h) /\ slice 3536 4 b = le 4 (h_keystore_id h) /\
  slice 3582 512 b = h_signature h /\ slice 4094 2 b = le 2 (h_signature_sz h).
Proof.
  intros W b. pose proof (zlen_enc_header h W) as L. pose proof (bytes_ok_enc_header h W) as Ok.
  pose proof (dec_enc_header h W) as E. fold b in L, Ok, E. rewrite <- E.
  unfold dec_header;
  cbn [h_magic h_pad0 h_meta h_parts h_metadata h_hash_kind h_signature_kind h_alignment
         h_payload_hash h_key_id h_keystore_id h_pad1 h_signature h_signature_sz].
  rewrite !le_unle' by (rewrite ?zlen_slice; try lia; now apply bytes_ok_slice).
  rewrite !bytes_eq_ok by (rewrite ?zlen_slice; try lia; now apply bytes_ok_slice).
  repeat split.
Qed.

Lemma wf_zero_meta : wf_meta zero_meta.
Proof. unfold wf_meta; cbn. repeat split; try lia. repeat (apply Forall_cons; [red; lia|]). constructor. Qed.
Lemma wf_zero_part : wf_part zero_part.
Proof. unfold wf_part; cbn. lia. Qed.
Lemma wf_init_header : wf_header init_header.
Proof.
  constructor; unfold init_header;
  cbn [h_magic h_pad0 h_meta h_parts h_metadata h_hash_kind h_signature_kind h_alignment
         h_payload_hash h_key_id h_keystore_id h_pad1 h_signature h_signature_sz];
  rewrite ?zlen_zeros; try (split; [cbn; lia | apply bytes_ok_zeros]);
  try (unfold HEADER_MAGIC, HASH_SHA256, SIGN_PRIME256v1, PART_ALIGN; lia).
  - split; [apply repeat_length|]. apply Forall_forall. intros x Hx. apply repeat_spec in Hx as ->. apply wf_zero_meta.
  - split; [apply repeat_length|]. apply Forall_forall. intros x Hx. apply repeat_spec in Hx as ->. apply wf_zero_part.
  - split; [reflexivity|apply bytes_ok_zeros].
Qed.
