(* VerifySign.v -- header hash, sign/verify, raw signatures *)
From Verif Require Import BaseLemmas HeaderModel HeaderSpec CodecProofs PartProofs CrcModel HashModel MerkleModel
  MerkleSpec MerkleSizes MerkleChunks MerkleProofs MerkleVerifySpec MerkleVerify VerifyModel VerifySpec VerifyProofs.

(* ---- header hash ---- *)
Lemma wf_unsigned h : wf_header h -> wf_header (unsigned h).
Proof.
  intros W. destruct W. constructor; cbn [unsigned with_signature h_magic h_pad0 h_meta h_parts h_metadata
    h_hash_kind h_signature_kind h_alignment h_payload_hash h_key_id h_keystore_id h_pad1 h_signature h_signature_sz]; auto.
  - split; [reflexivity|apply bytes_ok_zeros].
  - lia.
Qed.
Lemma wf_with_signature h s sz : wf_header h -> zlen s = 512 -> bytes_ok s -> 0 <= sz < 2^16 ->
  wf_header (with_signature h s sz).
Proof.
  intros W. destruct W. constructor; cbn [unsigned with_signature h_magic h_pad0 h_meta h_parts h_metadata
    h_hash_kind h_signature_kind h_alignment h_payload_hash h_key_id h_keystore_id h_pad1 h_signature h_signature_sz]; auto.
Qed.
Lemma header_hash_input h : wf_header h ->
  slice 0 (4096 - 512 - 2) (enc_header h) ++ zeros (512 + 2) = enc_header (unsigned h).
Proof.
  intros W.
  set (X := le 4 (h_magic h) ++ h_pad0 h ++ flat_map enc_meta (h_meta h) ++
    flat_map enc_part (h_parts h) ++ h_metadata h ++ [h_hash_kind h] ++ [h_signature_kind h] ++
    le 2 (h_alignment h) ++ h_payload_hash h ++ le 4 (h_key_id h) ++ le 4 (h_keystore_id h) ++ h_pad1 h).
  assert (E1 : enc_header h = X ++ h_signature h ++ le 2 (h_signature_sz h)).
  { unfold enc_header, X. rewrite <- !app_assoc. reflexivity. }
  assert (E2 : enc_header (unsigned h) = X ++ zeros 512 ++ le 2 0).
  { unfold enc_header, X, unsigned. cbn [with_signature h_magic h_pad0 h_meta h_parts h_metadata
    h_hash_kind h_signature_kind h_alignment h_payload_hash h_key_id h_keystore_id h_pad1 h_signature h_signature_sz].
    rewrite <- !app_assoc. reflexivity. }
  pose proof (zlen_enc_header h W) as L. rewrite E1 in L. rewrite !zlen_app, zlen_le in L.
  destruct (wf_signature _ W) as [Ls _]. 
  rewrite E1, E2. rewrite slice_here by lia. reflexivity.
Qed.
Theorem header_hash_spec sha h room : wf_header h -> hash_supported (h_hash_kind h) = true ->
  digest_len (h_hash_kind h) <= room ->
  compute_header_hash sha h room = Ok (Some (sha (h_hash_kind h) (enc_header (unsigned h)))).
Proof.
  intros W S R. unfold compute_header_hash. rewrite hash_init_ok by auto. cbn [bind].
  unfold hash_update. cbn [fst snd app]. rewrite hash_final_ok by auto. rewrite header_hash_input by auto. reflexivity.
Qed.
Theorem header_hash_input_inj h1 h2 : wf_header h1 -> wf_header h2 ->
  (enc_header (unsigned h1) = enc_header (unsigned h2) <-> unsigned h1 = unsigned h2).
Proof.
  intros W1 W2. split; [|now intros ->]. apply enc_header_inj; apply wf_unsigned; auto.
Qed.
Lemma header_hash_unsupported sha h room : hash_supported (h_hash_kind h) = false ->
  compute_header_hash sha h room = Err E_UNSUPPORTED_HASH_ALG.
Proof. intros S. unfold compute_header_hash, hash_init. rewrite S. reflexivity. Qed.
Lemma header_hash_silent sha h room : hash_supported (h_hash_kind h) = true ->
  room < digest_len (h_hash_kind h) -> compute_header_hash sha h room = Ok None.
Proof.
  intros S R. unfold compute_header_hash. rewrite hash_init_ok by auto. cbn [bind]. unfold hash_update, hash_final.
  cbn [fst snd]. rewrite S. cbn [negb]. destruct (Z.ltb_spec room (digest_len (h_hash_kind h))); [reflexivity|lia].
Qed.

(* ---- what acceptance by verify_merkle_tree implies ---- *)
Lemma split_tree : forall l T, Forall (fun x => 0 <= x) l -> zlen T = 4096 * zsum l ->
  exists ts, hash_tree ts = T /\ map zlen ts = map (Z.mul 4096) l.
Proof.
  induction l as [|x l IH]; intros T Hl HT.
  - exists []. change (zsum []) with 0 in HT. rewrite (zlen_0_nil T) by lia. split; reflexivity.
  - inversion Hl as [|? ? Hx Hl']; subst. cbn [zsum fold_right] in HT. fold (zsum l) in HT.
    assert (0 <= zsum l). { clear -Hl'. induction Hl'; cbn [zsum fold_right]; [lia|]. unfold zsum in *. lia. }
    destruct (IH (ztake (4096 * zsum l) T)) as (ts & E & M); auto.
    { rewrite zlen_ztake. lia. }
    exists (zdrop (4096 * zsum l) T :: ts). split.
    + rewrite hash_tree_cons, E. apply ztake_zdrop.
    + cbn [map]. rewrite M. f_equal. rewrite zlen_zdrop. lia.
Qed.
Lemma tree_blocks_nonneg c l : tree_blocks c l -> Forall (fun x => 0 <= x) l.
Proof. induction 1; constructor; auto; unfold ceil128 in *; lia. Qed.
Lemma init_ok_range {S} (d : io S) s n salt off zero c s0 : 0 <= n < 2^64 ->
  merkle_init d s n salt off zero = (c, Ok s0) -> 0 < n <= 2^33 /\ n mod 4096 = 0 /\ zlen salt <= 32.
Proof.
  intros Hn H.
  assert (Ha : n mod 4096 = 0).
  { unfold merkle_init, MBLOCK in H. destruct (Z.eqb_spec (n mod 4096) 0); [auto|discriminate]. }
  assert (Hsl : zlen salt <= 32).
  { unfold merkle_init, MBLOCK in H. rewrite Ha in H. cbn [Z.eqb negb] in H.
    destruct (Z.ltb_spec 32 (zlen salt)); [discriminate|lia]. }
  destruct (Z.eq_dec n 0) as [->|Hz].
  { exfalso. unfold merkle_init, MBLOCK in H. cbn [Z.eqb negb Z.modulo Z.div_eucl] in H.
    destruct (Z.ltb_spec 32 (zlen salt)); [lia|]. vm_compute in H. discriminate. }
  split; [|auto]. destruct (tree_blocks_exists (n / 4096)) as [l Hl]; [lia|].
  destruct (Z_le_gt_dec (zlen l) 3) as [L|L].
  - apply (tree_blocks_levels _ _ Hl 3) in L; [|lia]. change (128^3) with 2097152 in L. lia.
  - destruct (init_rejects d s n salt off zero l) as (c' & E & _); auto; try lia. congruence.
Qed.
Lemma verify_ok_range sha rd o n t e salt : 0 <= n < 2^64 -> verify_merkle_tree sha rd o n t e salt = Ok tt ->
  0 < n <= 2^33 /\ n mod 4096 = 0 /\ zlen salt <= 32.
Proof.
  intros Hn H. unfold verify_merkle_tree in H.
  destruct (merkle_init (verify_io rd) tt n salt t false) as [c r] eqn:E.
  destruct r as [[]|e'| |]; try discriminate. eapply init_ok_range; eauto.
Qed.
(* both files hold the data and a whole tree at these places *)
Definition tree_present (f : bytes) (o n t : Z) : Prop :=
  0 <= o /\ o + n <= zlen f /\ 0 <= t /\
  exists s, merkle_compute_size n = Ok s /\ t + s <= zlen f.
Theorem verify_two_files sha f1 f2 o n t e salt : good_hash sha -> 0 <= n < 2^64 ->
  tree_present f1 o n t -> tree_present f2 o n t ->
  verify_merkle_tree sha (file_rd f1) o n t e salt = Ok tt ->
  verify_merkle_tree sha (file_rd f2) o n t e salt = Ok tt ->
  sha256_collision sha \/ slice o n f1 = slice o n f2.
Proof.
  intros Hg Hn (Ho & Hl1 & Ht & s & Hs & Hf1) (_ & Hl2 & _ & s' & Hs' & Hf2) V1 V2.
  rewrite Hs in Hs'. injection Hs' as <-.
  destruct (verify_ok_range _ _ _ _ _ _ _ Hn V1) as (Hp & Ha & Hsalt).
  destruct (compute_size_spec n Hn) as [_ G]. destruct (G Ha) as (_ & _ & G3).
  destruct (G3 s Hs) as (l & Hl & _ & -> & _). pose proof (tree_blocks_sum _ _ Hl).
  assert (Hsplit : forall f, t + 4096 * zsum l <= zlen f ->
    exists P ts Q, f = P ++ hash_tree ts ++ Q /\ zlen P = t /\ map zlen ts = map (Z.mul 4096) l).
  { intros f Hf. destruct (split_tree l (slice t (4096 * zsum l) f)) as (ts & E & M).
    - eapply tree_blocks_nonneg; eauto.
    - apply zlen_slice_in; lia.
    - exists (ztake t f), ts, (zdrop (4096 * zsum l) (zdrop t f)). split; [|split; auto].
      + rewrite E. unfold slice. rewrite ztake_zdrop. now rewrite ztake_zdrop.
      + rewrite zlen_ztake. lia. }
  destruct (Hsplit f1 Hf1) as (P1 & ts1 & Q1 & E1 & L1 & M1).
  destruct (Hsplit f2 Hf2) as (P2 & ts2 & Q2 & E2 & L2 & M2).
  assert (S1 : sized (n / 4096) ts1) by (exists l; auto).
  assert (S2 : sized (n / 4096) ts2) by (exists l; auto).
  destruct (verify_merkle_exact sha f1 Hg P1 Q1 ts1 o n e salt) as [X1 _]; auto; try lia.
  destruct (verify_merkle_exact sha f2 Hg P2 Q2 ts2 o n e salt) as [X2 _]; auto; try lia.
  rewrite L1 in X1. rewrite L2 in X2. apply X1 in V1 as [C1 R1]. apply X2 in V2 as [C2 R2].
  destruct (merkle_binding sha Hg salt (slice o n f1) (slice o n f2) ts1 ts2 n) as [?|[E _]]; auto; try lia.
  - apply zlen_slice_in; lia.
  - apply zlen_slice_in; lia.
  - congruence.
Qed.

Lemma trees_loop_ok sha h rd off : forall l, verify_trees_loop sha h rd off l = Ok tt ->
  forall p mi, In p l -> p_id p <> 0 -> get_meta h ID_MERKLE_ROOT_HASH (p_id p) = Ok mi ->
  exists root si salt ti t, meta_read h mi 0 32 = Ok root /\ get_meta h ID_MERKLE_SALT (p_id p) = Ok si /\
    meta_read h si 0 32 = Ok salt /\ get_part h (part_id_to_hash_tree_id (p_id p)) = Ok ti /\
    nth_error (h_parts h) ti = Some t /\
    verify_merkle_tree sha rd (part_offset h p - HDR_SIZE + off) (part_size p)
                              (part_offset h t - HDR_SIZE + off) root salt = Ok tt.
Proof.
  induction l as [|q l IH]; intros H p mi Hin Hid Hm; [destruct Hin|].
  cbn [verify_trees_loop] in H.
  destruct Hin as [<-|Hin].
  - destruct (Z.eqb_spec (p_id q) 0); [contradiction|]. rewrite Hm in H.
    destruct (meta_read h mi 0 32) as [root| | |]; try discriminate. cbn [bind] in H.
    destruct (get_meta h ID_MERKLE_SALT (p_id q)) as [si| | |] eqn:Es; try discriminate.
    destruct (meta_read h si 0 32) as [salt| | |] eqn:Ems; try discriminate. cbn [bind] in H.
    destruct (get_part h (part_id_to_hash_tree_id (p_id q))) as [ti| | |] eqn:Et; try discriminate. cbn [bind] in H.
    destruct (nth_error (h_parts h) ti) as [t|] eqn:En; try discriminate.
    destruct (verify_merkle_tree sha rd (part_offset h q - HDR_SIZE + off) (part_size q)
      (part_offset h t - HDR_SIZE + off) root salt) as [[]| | |] eqn:Ev; try discriminate.
    exists root, si, salt, ti, t. repeat (split; [now auto|]). exact Ev.
  - apply (IH ltac:(
      destruct (Z.eqb_spec (p_id q) 0); [exact H|];
      destruct (get_meta h ID_MERKLE_ROOT_HASH (p_id q)) as [mi'| | |]; try exact H;
      destruct (meta_read h mi' 0 32) as [root| | |]; try discriminate; cbn [bind] in H;
      destruct (get_meta h ID_MERKLE_SALT (p_id q)) as [si| | |]; try discriminate;
      destruct (meta_read h si 0 32) as [salt| | |]; try discriminate; cbn [bind] in H;
      destruct (get_part h (part_id_to_hash_tree_id (p_id q))) as [ti| | |]; try discriminate; cbn [bind] in H;
      destruct (nth_error (h_parts h) ti) as [t|]; try discriminate;
      match type of H with bind ?x _ = _ => destruct x as [[]| | |]; try discriminate end; exact H) p mi); auto.
Qed.

(* ---- bpak_pkg_verify ---- *)
Lemma verify_payload_ok sha h f : good_hash sha -> wf_header h -> sizes_ok (h_parts h) ->
  verify_payload sha h (file_rd f) 4096 = Ok tt <->
  hash_supported (h_hash_kind h) = true /\ payload_present f 4096 (h_parts h) /\
  slice 0 (digest_len (h_hash_kind h)) (h_payload_hash h) = sha (h_hash_kind h) (hashed_payload f 4096 (h_parts h)) /\
  verify_trees_loop sha h (file_rd f) 4096 (h_parts h) = Ok tt.
Proof.
  intros Hg W Hok. unfold verify_payload.
  destruct (payload_hash_spec sha h f 4096 64 Hok ltac:(lia)) as [P1 P2].
  destruct (hash_supported (h_hash_kind h)) eqn:S.
  2:{ rewrite P1 by auto. cbn [bind]. split; [discriminate|]. intros [? _]. discriminate. }
  destruct (P2 eq_refl) as [P3 P4]. pose proof (digest_len_le (h_hash_kind h)) as D.
  destruct (forallb (present_b f) (hashed_parts 4096 (h_parts h))) eqn:F.
  - apply present_iff in F. destruct (P4 F) as [_ P5]. rewrite P5 by lia. cbn [bind].
    destruct (Hg (h_hash_kind h) (hashed_payload f 4096 (h_parts h)) S) as [L _]. rewrite L.
    match goal with |- context[bytes_eqb ?a ?b] => destruct (bytes_eqb a b) eqn:E end.
    + apply bytes_eqb_eq in E. split; [|tauto]. intros V. repeat split; auto.
    + apply bytes_eqb_neq in E. split; [discriminate|]. intros (_ & _ & G & _). congruence.
  - assert (N : ~ payload_present f 4096 (h_parts h)) by (rewrite <- present_iff; congruence).
    rewrite (P3 N). cbn [bind]. split; [discriminate|]. tauto.
Qed.

Section Sig.
Context {K : Type} (sha : hashfn) (sg : sigscheme K) (Hg : good_hash sha).

Lemma pkg_verify_ok junk p key : wf_header (pk_header p) -> sizes_ok (h_parts (pk_header p)) ->
  pkg_verify sha sg junk p key = Ok tt <->
  (let h := pk_header p in let f := pk_file p in
   hash_supported (h_hash_kind h) = true /\ h_signature_sz h <= 512 /\
   sg_verify sg (slice 0 (h_signature_sz h) (h_signature h)) (sha (h_hash_kind h) (enc_header (unsigned h))) (h_hash_kind h) key = Ok true /\
   payload_present f 4096 (h_parts h) /\
   slice 0 (digest_len (h_hash_kind h)) (h_payload_hash h) = sha (h_hash_kind h) (hashed_payload f 4096 (h_parts h)) /\
   verify_trees_loop sha h (file_rd f) 4096 (h_parts h) = Ok tt).
Proof.
  intros W Hok. unfold pkg_verify. cbn zeta. set (h := pk_header p) in *.
  pose proof (digest_len_le (h_hash_kind h)) as D.
  destruct (hash_supported (h_hash_kind h)) eqn:S.
  2:{ rewrite header_hash_unsupported by auto. cbn [bind]. split; [discriminate|]. intros [? _]. discriminate. }
  rewrite header_hash_spec by (auto; lia). cbn [bind]. rewrite Z.gtb_ltb.
  destruct (Z.ltb_spec 512 (h_signature_sz h)); [split; [discriminate|lia]|].
  match goal with |- context[sg_verify ?a ?b ?c ?d ?e] => destruct (sg_verify a b c d e) as [[|]| | |] end; cbn [bind];
    try (split; [discriminate|intros (_ & _ & G & _); discriminate]).
  change HDR_SIZE with 4096. rewrite (verify_payload_ok sha h (pk_file p) Hg W Hok). rewrite S. tauto.
Qed.

(* a signature is valid for one digest only *)
Definition binding_scheme : Prop := forall s d1 k1 d2 k2 key,
  sg_verify sg s d1 k1 key = Ok true -> sg_verify sg s d2 k2 key = Ok true -> d1 = d2 /\ k1 = k2.

Theorem verify_binds junk1 junk2 p1 p2 key : binding_scheme ->
  let h1 := pk_header p1 in let h2 := pk_header p2 in
  wf_header h1 -> wf_header h2 -> sizes_ok (h_parts h1) -> sizes_ok (h_parts h2) ->
  slice 0 (h_signature_sz h1) (h_signature h1) = slice 0 (h_signature_sz h2) (h_signature h2) ->
  pkg_verify sha sg junk1 p1 key = Ok tt -> pkg_verify sha sg junk2 p2 key = Ok tt ->
  hash_collision sha \/
  (unsigned h1 = unsigned h2 /\
   hashed_payload (pk_file p1) 4096 (h_parts h1) = hashed_payload (pk_file p2) 4096 (h_parts h2) /\
   (forall q mi t ti, In q (h_parts h1) -> p_id q <> 0 -> get_meta h1 ID_MERKLE_ROOT_HASH (p_id q) = Ok mi ->
      get_part h1 (part_id_to_hash_tree_id (p_id q)) = Ok ti -> nth_error (h_parts h1) ti = Some t ->
      tree_present (pk_file p1) (part_offset h1 q) (part_size q) (part_offset h1 t) ->
      tree_present (pk_file p2) (part_offset h1 q) (part_size q) (part_offset h1 t) ->
      hash_collision sha \/
      slice (part_offset h1 q) (part_size q) (pk_file p1) = slice (part_offset h1 q) (part_size q) (pk_file p2))).
Proof.
  intros HB h1 h2 W1 W2 O1 O2 Hsig V1 V2.
  apply pkg_verify_ok in V1; auto. apply pkg_verify_ok in V2; auto.
  cbn zeta in V1, V2. fold h1 in V1. fold h2 in V2.
  destruct V1 as (S1 & _ & G1 & P1 & H1 & T1). destruct V2 as (S2 & _ & G2 & P2 & H2 & T2).
  rewrite Hsig in G1. destruct (HB _ _ _ _ _ _ G1 G2) as [D Kd].
  rewrite <- Kd in D.
  destruct (list_eq_dec Z.eq_dec (enc_header (unsigned h1)) (enc_header (unsigned h2))) as [E|E].
  2:{ left. exists (h_hash_kind h1), (enc_header (unsigned h1)), (enc_header (unsigned h2)). auto. }
  apply header_hash_input_inj in E; auto.
  assert (Ep : h_parts h1 = h_parts h2) by (apply (f_equal h_parts) in E; exact E).
  assert (Eph : h_payload_hash h1 = h_payload_hash h2) by (apply (f_equal h_payload_hash) in E; exact E).
  assert (Em : h_meta h1 = h_meta h2) by (apply (f_equal h_meta) in E; exact E).
  assert (Emd : h_metadata h1 = h_metadata h2) by (apply (f_equal h_metadata) in E; exact E).
  destruct (list_eq_dec Z.eq_dec (hashed_payload (pk_file p1) 4096 (h_parts h1)) (hashed_payload (pk_file p2) 4096 (h_parts h2))) as [F|F].
  2:{ left. exists (h_hash_kind h1), (hashed_payload (pk_file p1) 4096 (h_parts h1)), (hashed_payload (pk_file p2) 4096 (h_parts h2)).
      split; [exact F|]. rewrite <- H1. rewrite Kd at 2. rewrite <- H2. now rewrite Kd, Eph. }
  right. split; [exact E|]. split; [exact F|].
  intros q mi t ti Hin Hid Hmi Hti Ht TP1 TP2.
  assert (gm : forall id r, get_meta h2 id r = get_meta h1 id r)
    by (intros; unfold get_meta, get_meta_int; now rewrite Em).
  assert (mr : forall i k n, meta_read h2 i k n = meta_read h1 i k n)
    by (intros; unfold meta_read; now rewrite Em, Emd).
  assert (gp : forall id, get_part h2 id = get_part h1 id) by (intros; unfold get_part; now rewrite Ep).
  assert (po : forall x, part_offset h2 x = part_offset h1 x) by (intros; unfold part_offset; now rewrite Ep).
  destruct (trees_loop_ok _ _ _ _ _ T1 q mi Hin Hid Hmi) as (r1 & si1 & sa1 & ti1 & t1 & A1 & A2 & A3 & A4 & A5 & A6).
  rewrite <- Ep in T2. rewrite <- gm in Hmi.
  destruct (trees_loop_ok _ _ _ _ _ T2 q mi Hin Hid Hmi) as (r2 & si2 & sa2 & ti2 & t2 & B1 & B2 & B3 & B4 & B5 & B6).
  rewrite mr in B1, B3. rewrite gm in B2. rewrite gp in B4. rewrite <- Ep in B5. rewrite !po in B6.
  rewrite Hti in A4, B4. injection A4 as <-. injection B4 as <-.
  rewrite Ht in A5, B5. injection A5 as <-. injection B5 as <-.
  rewrite A1 in B1. injection B1 as <-. rewrite A2 in B2. injection B2 as <-.
  rewrite A3 in B3. injection B3 as <-.
  replace (part_offset h1 q - HDR_SIZE + 4096) with (part_offset h1 q) in A6, B6 by (unfold HDR_SIZE; lia).
  replace (part_offset h1 t - HDR_SIZE + 4096) with (part_offset h1 t) in A6, B6 by (unfold HDR_SIZE; lia).
  assert (Hps : 0 <= part_size q < 2^64).
  { unfold sizes_ok in O1. rewrite Forall_forall in O1. destruct (O1 q Hin) as [Wq Sq].
    rewrite part_size_stored by auto. pose proof (stored_size_nonneg q Wq). lia. }
  destruct (verify_two_files sha (pk_file p1) (pk_file p2) (part_offset h1 q) (part_size q) (part_offset h1 t) r1 sa1)
    as [(a & b & ? & ?)|?]; auto.
  left. exists 1, a, b. auto.
Qed.

(* ---- bpak_pkg_sign ---- *)
Definition correct_scheme (pub_of : K -> K) : Prop := forall d k key s,
  bytes_ok d -> zlen d = digest_len k -> hash_supported k = true ->
  sg_sign sg d k key = Ok s -> zlen s <= 512 /\ bytes_ok s /\ sg_verify sg s d k (pub_of key) = Ok true.
Definition with_digest (h : header) (d : bytes) : header := with_payload_hash h (splice 0 d (h_payload_hash h)).

Lemma wf_with_payload_hash h d : wf_header h -> zlen d = 64 -> bytes_ok d -> wf_header (with_payload_hash h d).
Proof.
  intros W. destruct W. constructor; cbn [with_payload_hash h_magic h_pad0 h_meta h_parts h_metadata
    h_hash_kind h_signature_kind h_alignment h_payload_hash h_key_id h_keystore_id h_pad1 h_signature h_signature_sz]; auto.
Qed.
Lemma hashed_payload_ext f1 f2 pos l : Forall wf_part l -> 0 <= pos -> zdrop pos f1 = zdrop pos f2 ->
  hashed_payload f1 pos l = hashed_payload f2 pos l.
Proof.
  intros W Hp E. unfold hashed_payload. f_equal. apply map_ext_in. intros [x q] Hin. cbn [fst snd].
  unfold hashed_parts in Hin. apply filter_In in Hin as [Hin _].
  destruct (in_placed _ _ _ _ Hin) as (a & b & Ea & ->).
  assert (Wu : Forall wf_part (used l)).
  { apply Forall_forall. intros y Hy. unfold used in Hy. apply filter_In in Hy as [Hy _]. rewrite Forall_forall in W. auto. }
  rewrite Ea in Wu. apply Forall_app in Wu as [Wa _]. pose proof (sum_sizes_nonneg a Wa).
  unfold slice. f_equal. rewrite Z.add_comm, <- !zdrop_zdrop by lia. now rewrite E.
Qed.
End Sig.
