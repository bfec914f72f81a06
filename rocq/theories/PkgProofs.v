(* PkgProofs.v -- building blocks for lib/pkg.c and lib/pkg_create.c *)
From Verif Require Import BaseLemmas HeaderModel HeaderSpec CodecProofs PartProofs MetaProofs CrcModel HashModel MerkleModel
  VerifyModel VerifySpec VerifyProofs VerifySign PkgModel PkgSpec.

Lemma padding_range n : 0 <= padding n < 512.
Proof. unfold padding. lia. Qed.
Lemma padding_aligned n : (n + padding n) mod 512 = 0.
Proof. unfold padding. lia. Qed.
Lemma pad_for_padding n : 0 <= n -> pad_for n = padding n.
Proof. intros H. unfold pad_for, padding, PART_ALIGN. destruct (Z.eqb_spec (n mod 512) 0); lia. Qed.

(* ---- holds ---- *)
Lemma holds_live p es : holds p es -> live_ok (map fst es).
Proof.
  intros H. destruct H. split; [now rewrite map_length|]. split; [now apply Forall_map|].
  now rewrite map_map.
Qed.
Lemma holds_table p es : holds p es -> h_parts (pk_header p) = table (map fst es).
Proof. intros H. destruct H. unfold table. now rewrite map_length. Qed.
Lemma holds_parts_are p es : holds p es -> parts_are (h_parts (pk_header p)) (map fst es).
Proof. intros H. rewrite (holds_table _ _ H). apply parts_are_table. eapply holds_live; eauto. Qed.
Lemma sum_contents (es : list (parth * bytes)) : Forall (fun e : parth * bytes => zlen (snd e) = stored_size (fst e)) es ->
  zlen (concat (map snd es)) = sum_sizes (map fst es).
Proof.
  induction 1 as [|e es He _ IH]; [reflexivity|]. cbn [map concat]. rewrite zlen_app, sum_sizes_cons. lia.
Qed.
Lemma wf_parts_app h l r : wf_header h -> h_parts h = l ++ r -> Forall wf_part l.
Proof. intros W E. destruct (wf_parts h W) as [_ F]. rewrite E in F. now apply Forall_app in F. Qed.
Lemma sizes_of (es : list (parth * bytes)) : Forall (fun e : parth * bytes => zlen (snd e) = stored_size (fst e)) es -> Forall wf_part (map fst es) ->
  zlen (concat (map snd es)) < 2^63 -> sizes_ok (table (map fst es)).
Proof.
  intros S W B. unfold sizes_ok, table. apply Forall_app. split.
  - revert W B. induction S as [|e es He _ IH]; intros W B; [constructor|]. cbn [map concat] in *.
    rewrite zlen_app in B. inversion W; subst. pose proof (zlen_nonneg (concat (map snd es))).
    pose proof (zlen_nonneg (snd e)).
    constructor; [split; [auto|lia]|]. apply IH; auto. lia.
  - apply Forall_forall. intros q Hq. apply repeat_spec in Hq as ->. split; [exact wf_zero_part|reflexivity].
Qed.
Lemma used_table l : Forall (fun p => p_id p <> 0) l -> used (table l) = l.
Proof.
  intros H. unfold used, table. rewrite filter_app.
  assert (E : filter (fun p => negb (p_id p =? 0)) (repeat zero_part (32 - length l)) = []).
  { induction (32 - length l)%nat; [reflexivity|]. cbn [repeat filter]. exact IHn. }
  rewrite E, app_nil_r. clear E. induction H as [|p l Hp _ IH]; [reflexivity|]. cbn [filter].
  destruct (Z.eqb_spec (p_id p) 0); [contradiction|]. cbn [negb]. f_equal. exact IH.
Qed.

Lemma placed_contents (extra : bytes) : forall (es : list (parth * bytes)) (pre : bytes),
  Forall (fun e : parth * bytes => zlen (snd e) = stored_size (fst e)) es ->
  let f := pre ++ concat (map snd es) ++ extra in
  let hp := filter (fun x => negb (excluded (fst x))) (placed (zlen pre) (map fst es)) in
  Forall (fun x => stored_size (fst x) = 0 \/ snd x + stored_size (fst x) <= zlen f) hp /\
  map (fun x => slice (snd x) (stored_size (fst x)) f) hp = map snd (filter (fun e : parth * bytes => negb (excluded (fst e))) es).
Proof.
  induction es as [|e es IH]; intros pre S f hp; [split; [constructor|reflexivity]|].
  inversion S as [|? ? He Hr]; subst. subst f hp. cbn [map concat placed filter fst snd].
  specialize (IH (pre ++ snd e) Hr). cbv zeta in IH.
  assert (Hz : zlen (pre ++ snd e) = zlen pre + stored_size (fst e)) by (rewrite zlen_app; f_equal; exact He).
  rewrite Hz in IH. rewrite <- !app_assoc in IH.
  replace ((snd e ++ concat (map snd es)) ++ extra) with (snd e ++ concat (map snd es) ++ extra) by now rewrite app_assoc.
  destruct IH as [IH1 IH2].
  destruct (excluded (fst e)) eqn:Ex; cbn [negb filter map fst snd].
  - split; auto.
  - split.
    + constructor; auto. cbn [fst snd]. right. rewrite !zlen_app, <- He.
      pose proof (zlen_nonneg (concat (map snd es))). pose proof (zlen_nonneg extra). lia.
    + f_equal; auto. rewrite <- He. apply slice_app_exact; reflexivity.
Qed.
Lemma payload_of_contents (f hdr : bytes) (es : list (parth * bytes)) extra : zlen hdr = 4096 ->
  f = hdr ++ concat (map snd es) ++ extra ->
  Forall (fun e : parth * bytes => zlen (snd e) = stored_size (fst e)) es -> Forall (fun e : parth * bytes => p_id (fst e) <> 0) es ->
  payload_present f 4096 (table (map fst es)) /\ hashed_payload f 4096 (table (map fst es)) = covered es.
Proof.
  intros Hh -> S N. unfold payload_present, hashed_payload, hashed_parts.
  rewrite used_table by now apply Forall_map.
  destruct (placed_contents extra es hdr S) as [A B]. rewrite Hh in *. split; [exact A|].
  unfold covered. now rewrite B.
Qed.

(* ---- updating the hash and writing the header ---- *)
Lemma hash_and_write_spec sha h f : wf_header h -> sizes_ok (h_parts h) ->
  hash_supported (h_hash_kind h) = true -> payload_present f 4096 (h_parts h) ->
  let h' := with_digest h (sha (h_hash_kind h) (hashed_payload f 4096 (h_parts h))) in
  good_hash sha ->
  wf_header h' /\ hash_and_write sha (mkPkg h f) = (mkPkg h' (enc_header h' ++ zdrop 4096 f), Ok tt) /\
  slice 0 (digest_len (h_hash_kind h')) (h_payload_hash h') =
    sha (h_hash_kind h) (hashed_payload f 4096 (h_parts h)).
Proof.
  intros W S Hs P h' G. destruct (G _ (hashed_payload f 4096 (h_parts h)) Hs) as [D1 D2].
  pose proof (digest_len_le (h_hash_kind h)) as Dle. destruct (wf_payload_hash h W) as [L B].
  assert (W' : wf_header h').
  { subst h'. unfold with_digest. apply wf_with_payload_hash; auto.
    - rewrite zlen_splice; lia.
    - now apply bytes_ok_splice. }
  split; auto. split.
  - unfold hash_and_write, pkg_update_hash. cbn [pk_header pk_file].
    destruct (payload_hash_spec sha h f HDR_SIZE 64 S ltac:(unfold HDR_SIZE; lia)) as [_ H].
    destruct (H Hs) as [_ H2]. destruct (H2 P) as [_ H3]. rewrite H3 by lia.
    cbn [pk_header pk_file]. unfold pkg_write_header. cbn [pk_header pk_file].
    change (VerifyModel.with_payload_hash h
      (splice 0 (sha (h_hash_kind h) (hashed_payload f 4096 (h_parts h))) (h_payload_hash h))) with h'.
    f_equal. f_equal. rewrite fwrite_at_in by (pose proof (zlen_nonneg f); lia).
    unfold splice. rewrite ztake_0, zlen_enc_header by auto. reflexivity.
  - subst h'. cbn [with_digest VerifyModel.with_payload_hash h_hash_kind h_payload_hash].
    rewrite <- D1. apply slice_splice_same; lia.
Qed.

(* ---- lookups ---- *)
Lemma get_part_at p (a : list (parth * bytes)) q c b : holds p (a ++ (q, c) :: b) -> get_part (pk_header p) (p_id q) = Ok (length a) /\
  nth_error (h_parts (pk_header p)) (length a) = Some q.
Proof.
  intros H. pose proof (ho_table _ _ H) as T. split.
  - unfold get_part. rewrite T, map_app. cbn [map fst]. rewrite <- app_assoc. cbn [app].
    rewrite find_index_split.
    + now rewrite map_length.
    + pose proof (ho_distinct _ _ H) as D. rewrite map_app in D. cbn [map fst] in D. apply NoDup_remove_2 in D.
      rewrite Forall_map. apply Forall_forall. intros e He. apply Z.eqb_neq. intros E. elim D.
      apply in_or_app. left. rewrite <- E. now apply (in_map (fun e : parth * bytes => p_id (fst e))).
    + apply Z.eqb_refl.
  - rewrite T, map_app. cbn [map fst]. rewrite <- app_assoc. cbn [app].
    rewrite nth_error_app2 by now rewrite map_length. now rewrite map_length, Nat.sub_diag.
Qed.
Lemma get_part_none p es id : holds p es -> id <> 0 -> ~ In id (map (fun e : parth * bytes => p_id (fst e)) es) ->
  get_part (pk_header p) id = Err E_NOT_FOUND.
Proof.
  intros H Hid N. unfold get_part.
  replace (find_index _ _) with (@None nat); [reflexivity|]. symmetry. apply find_index_None.
  rewrite (ho_table _ _ H). apply Forall_app. split.
  - rewrite Forall_map. apply Forall_forall. intros e He. apply Z.eqb_neq. intros E. elim N.
    rewrite <- E. now apply (in_map (fun e : parth * bytes => p_id (fst e))).
  - apply Forall_forall. intros q Hq. apply repeat_spec in Hq as ->. apply Z.eqb_neq. cbn. lia.
Qed.
Lemma part_offset_at p (a : list (parth * bytes)) q c b : holds p (a ++ (q, c) :: b) ->
  part_offset (pk_header p) q = 4096 + zlen (concat (map snd a)).
Proof.
  intros H. pose proof (holds_parts_are _ _ H) as PA. rewrite map_app in PA. cbn [map fst] in PA.
  pose proof (ho_sizes _ _ H) as S. apply Forall_app in S as [Sa Sq].
  destruct (wf_parts _ (ho_wf _ _ H)) as [_ W].
  rewrite (part_offset_prefix _ (map fst a) q (map fst b)); auto.
  - now rewrite sum_contents.
  - pose proof (ho_bound _ _ H) as B. rewrite (ho_file _ _ H), zlen_app, zlen_enc_header in B by (apply (ho_wf _ _ H)).
    rewrite map_app, concat_app, zlen_app in B. rewrite (sum_contents a Sa) in B.
    pose proof (zlen_nonneg (concat (map snd ((q, c) :: b)))). lia.
Qed.
Lemma entry_wf p (es : list (parth * bytes)) e : holds p es -> In e es -> wf_part (fst e) /\ zlen (snd e) = stored_size (fst e) /\ zlen (snd e) < 2^63.
Proof.
  intros H Hin. pose proof (ho_sizes _ _ H) as S. rewrite Forall_forall in S.
  split; [|split; [now apply S|]].
  - pose proof (wf_parts_app _ _ _ (ho_wf _ _ H) (ho_table _ _ H)) as W.
    rewrite Forall_forall in W. apply W. now apply in_map.
  - pose proof (ho_bound _ _ H) as B. rewrite (ho_file _ _ H), zlen_app in B.
    apply in_split in Hin as (a & b & ->). rewrite map_app, concat_app, zlen_app in B. cbn [map concat] in B.
    rewrite zlen_app in B. pose proof (zlen_nonneg (enc_header (pk_header p))).
    pose proof (zlen_nonneg (concat (map snd a))). pose proof (zlen_nonneg (concat (map snd b))). lia.
Qed.

(* ---- extraction ---- *)
Lemma copy_out_spec f : forall fuel pos left out, 0 <= pos -> 0 <= left -> pos + left <= zlen f ->
  left / 4096 < Z.of_nat fuel ->
  copy_out_loop fuel f pos left out = (out ++ slice pos left f, Ok tt).
Proof.
  induction fuel as [|k IH]; intros pos left out Hp Hl Hb Hf; [lia|].
  cbn [copy_out_loop]. destruct (Z.eqb_spec left 0) as [->|Hn].
  - rewrite slice_neg_len, app_nil_r by lia. reflexivity.
  - unfold CHUNK. set (n := if left >? 4096 then 4096 else left).
    assert (Hnn : 0 < n <= left /\ (n = left \/ n = 4096)) by (unfold n; destruct (Z.gtb_spec left 4096); lia).
    clearbody n. unfold fread_at.
    rewrite (zlen_slice_in pos n f) by lia. rewrite Z.eqb_refl.
    destruct Hnn as [Hn1 [->| ->]].
    + rewrite Z.sub_diag. destruct k; cbn [copy_out_loop]; reflexivity.
    + rewrite IH by lia. rewrite <- app_assoc. f_equal. f_equal.
      replace left with (4096 + (left - 4096)) at 2 by lia. now rewrite slice_split by lia.
Qed.
Lemma copy_out_short f : forall fuel pos left out, 0 <= pos -> 0 <= left -> zlen f < pos + left -> 0 < left ->
  left / 4096 < Z.of_nat fuel ->
  exists o, copy_out_loop fuel f pos left out = (o, Err E_READ_ERROR).
Proof.
  induction fuel as [|k IH]; intros pos left out Hp Hl Hb Hpos Hf; [lia|].
  cbn [copy_out_loop]. destruct (Z.eqb_spec left 0) as [->|Hn]; [lia|].
  unfold CHUNK. set (n := if left >? 4096 then 4096 else left).
  assert (Hnn : 0 < n <= left /\ (n = left \/ n = 4096)) by (unfold n; destruct (Z.gtb_spec left 4096); lia).
  clearbody n. unfold fread_at. destruct (Z.eqb_spec (zlen (slice pos n f)) n) as [E|E].
  - assert (pos + n <= zlen f).
    { unfold slice in E. rewrite zlen_ztake, zlen_zdrop in E. lia. }
    destruct (Z.eq_dec n left); [lia|]. destruct Hnn as [Hn1 [?| ->]]; [lia|]. apply IH; lia.
  - eexists. reflexivity.
Qed.

Lemma extract_at p (a : list (parth * bytes)) q (d : bytes) pad (b : list (parth * bytes)) : holds p (a ++ (q, d ++ zeros pad) :: b) -> Z.testbit (p_flags q) 1 = false ->
  p_pad_bytes q = pad -> pkg_extract_file p (p_id q) = (Some d, Ok tt).
Proof.
  intros H T Hpad. destruct (get_part_at _ _ _ _ _ H) as [G N]. unfold pkg_extract_file. rewrite G, N.
  rewrite (part_offset_at _ _ _ _ _ H).
  destruct (entry_wf _ _ (q, d ++ zeros pad) H (in_elt _ _ _)) as (W & S & B). cbn [fst snd] in *.
  pose proof (zlen_nonneg (concat (map snd a))) as Ha. pose proof (zlen_nonneg d) as Hd.
  destruct (Z.ltb_spec (4096 + zlen (concat (map snd a))) 0); [lia|].
  rewrite part_size_stored by (auto; lia).
  assert (Hz : zlen (d ++ zeros pad) = zlen d + pad).
  { rewrite zlen_app, zlen_zeros. destruct W as (_ & _ & _ & _ & W5 & _). lia. }
  rewrite Hz in *. rewrite <- S, Hpad. replace (zlen d + pad - pad) with (zlen d) by lia.
  unfold u64. rewrite Z.mod_small.
  2:{ destruct W as (_ & _ & _ & _ & W5 & _). lia. }
  rewrite copy_out_spec; try lia.
  - f_equal. f_equal. rewrite (ho_file _ _ H). rewrite map_app, concat_app. cbn [map concat snd].
    rewrite app_assoc. rewrite <- !app_assoc. rewrite (app_assoc (enc_header _)).
    cbn [app]. apply slice_app_exact; [|reflexivity].
    rewrite zlen_app, zlen_enc_header by apply (ho_wf _ _ H). lia.
  - rewrite (ho_file _ _ H), zlen_app, zlen_enc_header by apply (ho_wf _ _ H).
    rewrite map_app, concat_app. cbn [map concat snd]. rewrite !zlen_app in *.
    pose proof (zlen_nonneg (concat (map snd b))). pose proof (zlen_nonneg (zeros pad)). lia.
  - unfold CHUNK. lia.
Qed.
