(* PkgAdd.v -- bpak_pkg_add_file and bpak_pkg_add_key *)
From Verif Require Import BaseLemmas HeaderModel HeaderSpec CodecProofs PartProofs MetaProofs CrcModel CrcProofs HashModel MerkleModel
  VerifyModel VerifySpec VerifyProofs VerifySign VerifyWitness PkgModel PkgSpec PkgProofs.

Lemma append_fold l : forall acc, Forall wf_part l -> Forall (fun q => Z.testbit (p_flags q) 1 = false) l ->
  0 <= acc -> acc + sum_sizes l < 2^63 ->
  fold_left (fun a q => u64 (a + (p_size q + p_pad_bytes q))) l acc = acc + sum_sizes l.
Proof.
  induction l as [|q l IH]; intros acc W P Ha Hb; [cbn [fold_left sum_sizes fold_right]; lia|].
  cbn [fold_left]. rewrite sum_sizes_cons in *. inversion W; inversion P; subst.
  pose proof (sum_sizes_nonneg l ltac:(auto)). pose proof (stored_size_nonneg q ltac:(auto)) as Hs.
  assert (E : stored_size q = p_size q + p_pad_bytes q) by (unfold stored_size; now rewrite H5).
  rewrite <- E. unfold u64. rewrite Z.mod_small by lia. rewrite IH; auto; lia.
Qed.
Lemma sum_zero_parts n : sum_sizes (repeat zero_part n) = 0.
Proof. induction n; [reflexivity|]. cbn [repeat]. rewrite sum_sizes_cons, IHn. reflexivity. Qed.
Lemma append_offset_spec p es : holds p es -> plain es -> append_offset (pk_header p) = zlen (pk_file p).
Proof.
  intros H P. pose proof (ho_bound _ _ H) as B. pose proof (ho_sizes _ _ H) as S.
  rewrite (ho_file _ _ H), zlen_app, zlen_enc_header in * by apply (ho_wf _ _ H).
  rewrite sum_contents in * by auto. unfold append_offset.
  rewrite append_fold.
  - rewrite (ho_table _ _ H), sum_sizes_app, sum_zero_parts. unfold HDR_SIZE. lia.
  - apply (wf_parts _ (ho_wf _ _ H)).
  - rewrite (ho_table _ _ H). apply Forall_app. split.
    + apply Forall_map. exact P.
    + apply Forall_forall. intros q Hq. apply repeat_spec in Hq as ->. reflexivity.
  - unfold HDR_SIZE. lia.
  - rewrite (ho_table _ _ H), sum_sizes_app, sum_zero_parts. unfold HDR_SIZE. lia.
Qed.

Lemma copy_in_spec : forall fuel (f data : bytes), zlen data < 2^63 -> (zlen data + 4095) / 4096 <= Z.of_nat fuel ->
  copy_in_loop fuel f (zlen f) data (zlen data) = Ok (f ++ data, zlen f + zlen data).
Proof.
  induction fuel as [|k IH]; intros f data Hd Hf; cbn [copy_in_loop].
  - destruct (Z.eqb_spec (zlen data) 0) as [E|E].
    + apply zlen_0_nil in E as ->. now rewrite app_nil_r, zlen_nil, Z.add_0_r.
    + pose proof (zlen_nonneg data). lia.
  - destruct (Z.eqb_spec (zlen data) 0) as [E|E].
    + apply zlen_0_nil in E as ->. now rewrite app_nil_r, zlen_nil, Z.add_0_r.
    + pose proof (zlen_nonneg data) as Hn.
      rewrite fwrite_at_end by reflexivity.
      assert (Hs : zlen data = zlen (ztake CHUNK data) + zlen (zdrop CHUNK data)).
      { rewrite <- zlen_app, ztake_zdrop. reflexivity. }
      pose proof (zlen_ztake CHUNK data) as Ht. pose proof (zlen_zdrop CHUNK data) as Hdr. unfold CHUNK in *.
      unfold u64. rewrite Z.mod_small by lia.
      replace (zlen data - zlen (ztake 4096 data)) with (zlen (zdrop 4096 data)) by lia.
      rewrite <- zlen_app. rewrite IH by lia. rewrite <- app_assoc, ztake_zdrop, zlen_app. f_equal. f_equal. lia.
Qed.

Lemma add_part_holds p es id : holds p es -> id <> 0 ->
  add_part (pk_header p) id =
    if existsb (fun e : parth * bytes => p_id (fst e) =? id) es then (pk_header p, Err E_EXISTS)
    else if (32 <=? length es)%nat then (pk_header p, Err E_NO_SPACE_LEFT)
    else (with_parts (pk_header p) (map fst es ++ set_p_id zero_part id :: repeat zero_part (31 - length es)), Ok (length es)).
Proof.
  intros H Hid. unfold add_part. rewrite (ho_table _ _ H).
  rewrite add_part_loop_spec; auto.
  2:{ apply Forall_map. apply (ho_nonzero _ _ H). }
  2:{ apply table_empty_zero. }
  assert (Ex : existsb (fun q => p_id q =? id) (map fst es) = existsb (fun e : parth * bytes => p_id (fst e) =? id) es).
  { clear H. induction es as [|e es IH]; [reflexivity|]. cbn [map existsb]. f_equal. apply IH. }
  rewrite Ex. rewrite <- (ho_table _ _ H). destruct (existsb _ es).
  - now rewrite with_parts_id.
  - pose proof (ho_count _ _ H). destruct (Nat.leb_spec 32 (length es)).
    + replace (32 - length es)%nat with 0%nat by lia. cbn [repeat]. now rewrite with_parts_id.
    + replace (32 - length es)%nat with (S (31 - length es)) by lia. cbn [repeat]. now rewrite map_length.
Qed.

(* update of the payload hash and header for a package whose data is in place *)
Lemma commit_spec sha h f es extra : good_hash sha -> wf_header h -> hash_supported (h_hash_kind h) = true ->
  (length es <= 32)%nat -> h_parts h = map fst es ++ repeat zero_part (32 - length es) ->
  Forall (fun e : parth * bytes => p_id (fst e) <> 0) es -> NoDup (map (fun e : parth * bytes => p_id (fst e)) es) ->
  Forall (fun e : parth * bytes => zlen (snd e) = stored_size (fst e)) es ->
  4096 <= zlen f -> zdrop 4096 f = concat (map snd es) ++ extra -> 4096 + zlen (concat (map snd es)) < 2^63 ->
  exists h', hash_and_write sha (mkPkg h f) = (mkPkg h' (enc_header h' ++ concat (map snd es) ++ extra), Ok tt) /\
    holds (mkPkg h' (enc_header h' ++ concat (map snd es))) es /\
    h' = HeaderModel.with_payload_hash h (h_payload_hash h') /\
    slice 0 (digest_len (h_hash_kind h')) (h_payload_hash h') = sha (h_hash_kind h') (covered es).
Proof.
  intros G W Hs Hc Ht Hn Hd S Hf Hz Hb.
  assert (Ht' : h_parts h = table (map fst es)) by (unfold table; now rewrite map_length).
  assert (Wp : Forall wf_part (map fst es)) by (eapply wf_parts_app; eauto).
  assert (Sz : sizes_ok (h_parts h)) by (rewrite Ht'; apply sizes_of; auto; lia).
  destruct (payload_of_contents f (ztake 4096 f) es extra) as [P1 P2]; auto.
  { rewrite zlen_ztake. lia. }
  { rewrite <- Hz. symmetry. apply ztake_zdrop. }
  rewrite <- Ht' in P1, P2.
  destruct (hash_and_write_spec sha h f W Sz Hs P1 G) as (W' & E & D).
  rewrite P2 in *. set (h' := with_digest h (sha (h_hash_kind h) (covered es))) in *.
  exists h'. rewrite Hz in E. split; [exact E|].
  split.
  { constructor; cbn [pk_header pk_file]; auto. rewrite zlen_app, zlen_enc_header by auto. lia. }
  split; [reflexivity|exact D].
Qed.

Lemma wf_new_part id size off pad flags : 0 <= id < 2^32 -> 0 <= size < 2^63 -> 0 <= off < 2^63 -> 0 <= pad < 512 ->
  0 <= flags < 2^8 -> wf_part (mkPart id size off 0 pad flags 0).
Proof. intros. unfold wf_part. cbn [p_id p_size p_offset p_transport_size p_pad_bytes p_flags p_pad]. lia. Qed.

(* the header after a part has been appended and filled in *)
Lemma filled_header p es id size off pad flags : holds p es -> (length es < 32)%nat ->
  let h1 := with_parts (pk_header p) (map fst es ++ set_p_id zero_part id :: repeat zero_part (31 - length es)) in
  fill_part h1 (length es) id size off pad flags =
  with_parts (pk_header p) (map fst es ++ mkPart id size off 0 pad flags 0 :: repeat zero_part (31 - length es)).
Proof.
  intros H Hl h1. unfold fill_part. subst h1. cbn [h_parts with_parts].
  rewrite nth_error_app2 by (rewrite map_length; lia). rewrite map_length, Nat.sub_diag. cbn [nth_error].
  rewrite with_parts_parts. f_equal.
  replace (length es) with (length (map (@fst parth bytes) es)) at 1 by apply map_length.
  rewrite list_upd_middle. reflexivity.
Qed.

Lemma append_commit_gen sha p es q c f : good_hash sha -> holds p es -> hash_supported (h_hash_kind (pk_header p)) = true ->
  (length es < 32)%nat -> wf_part q -> p_id q <> 0 -> ~ In (p_id q) (map (fun e : parth * bytes => p_id (fst e)) es) ->
  zlen c = stored_size q -> zlen (pk_file p) + zlen c < 2^63 ->
  4096 <= zlen f -> zdrop 4096 f = concat (map snd es) ++ c ->
  let h2 := with_parts (pk_header p) (map fst es ++ q :: repeat zero_part (31 - length es)) in
  exists p', hash_and_write sha (mkPkg h2 f) = (p', Ok tt) /\
    holds p' (es ++ [(q, c)]) /\ same_besides_parts (pk_header p) (pk_header p') /\ hash_current sha p' (es ++ [(q, c)]).
Proof.
  intros G H Hs Hl Wq Hq Hnin Hc Hb Hf1 Hf2 h2.
  pose proof (ho_file _ _ H) as F. pose proof (zlen_enc_header _ (ho_wf _ _ H)) as Le.
  assert (W2 : wf_header h2).
  { apply wf_with_parts; [apply (ho_wf _ _ H)| |].
    - rewrite app_length, map_length. cbn [length]. rewrite repeat_length. lia.
    - apply Forall_app. split; [exact (wf_parts_app _ _ _ (ho_wf _ _ H) (ho_table _ _ H))|]. constructor; auto.
      apply Forall_forall. intros x Hx. apply repeat_spec in Hx as ->. exact wf_zero_part. }
  destruct (commit_spec sha h2 f (es ++ [(q, c)]) []) as (h' & E & H' & Eh & D); auto.
  - rewrite app_length. cbn [length]. lia.
  - subst h2. cbn [h_parts with_parts]. rewrite map_app, app_length. cbn [map fst length].
    rewrite <- app_assoc. cbn [app]. do 3 f_equal. lia.
  - apply Forall_app. split; [apply (ho_nonzero _ _ H)|]. constructor; auto.
  - rewrite map_app. cbn [map fst]. apply NoDup_Add with (a := p_id q) (l := map (fun e : parth * bytes => p_id (fst e)) es).
    + pose proof (Add_app (p_id q) (map (fun e : parth * bytes => p_id (fst e)) es) []) as A. rewrite app_nil_r in A. exact A.
    + split; auto. apply (ho_distinct _ _ H).
  - apply Forall_app. split; [apply (ho_sizes _ _ H)|]. constructor; auto.
  - rewrite Hf2, map_app, concat_app. cbn [map concat snd]. now rewrite !app_nil_r.
  - rewrite map_app, concat_app, zlen_app. cbn [map concat snd]. rewrite app_nil_r.
    rewrite F, zlen_app, Le in Hb. lia.
  - rewrite app_nil_r in E. exists (mkPkg h' (enc_header h' ++ concat (map snd (es ++ [(q, c)])))).
    split; [exact E|]. split; [exact H'|]. split; [|exact D].
    unfold same_besides_parts. cbn [pk_header]. rewrite Eh at 1. subst h2. rewrite Eh. reflexivity.
Qed.
Lemma append_commit sha p es q c : good_hash sha -> holds p es -> hash_supported (h_hash_kind (pk_header p)) = true ->
  (length es < 32)%nat -> wf_part q -> p_id q <> 0 -> ~ In (p_id q) (map (fun e : parth * bytes => p_id (fst e)) es) ->
  zlen c = stored_size q -> zlen (pk_file p) + zlen c < 2^63 ->
  let h2 := with_parts (pk_header p) (map fst es ++ q :: repeat zero_part (31 - length es)) in
  exists p', hash_and_write sha (mkPkg h2 (pk_file p ++ c)) = (p', Ok tt) /\
    holds p' (es ++ [(q, c)]) /\ same_besides_parts (pk_header p) (pk_header p') /\ hash_current sha p' (es ++ [(q, c)]).
Proof.
  intros G H Hs Hl Wq Hq Hnin Hc Hb h2.
  pose proof (ho_file _ _ H) as F. pose proof (zlen_enc_header _ (ho_wf _ _ H)) as Le.
  apply append_commit_gen; auto.
  - rewrite zlen_app, F, zlen_app, Le. pose proof (zlen_nonneg c). pose proof (zlen_nonneg (concat (map snd es))). lia.
  - rewrite F, <- app_assoc, zdrop_app_r by lia. rewrite Le, Z.sub_diag, zdrop_0. reflexivity.
Qed.

Lemma bpak_id_bound name : bytes_ok name -> 0 <= bpak_id name < 2^32.
Proof. intros H. unfold bpak_id. apply (crc32_w32 0 name); auto. unfold w32. lia. Qed.

Lemma s64_small x : 0 <= x < 2^63 -> s64 x = x.
Proof. intros H. unfold s64. rewrite Z.mod_small by lia. lia. Qed.

Definition new_part (p : pkg) (id : Z) (data : bytes) (flags : Z) : parth :=
  mkPart id (zlen data) (zlen (pk_file p)) 0 (padding (zlen data)) flags 0.

(* [hd]: the first 4096 bytes of the file, which the header in memory replaces *)
Lemma add_file_head sha p (hd : bytes) es data name flags : good_hash sha -> holds p es -> zlen hd = 4096 -> plain es ->
  hash_supported (h_hash_kind (pk_header p)) = true ->
  bytes_ok name -> bpak_id name <> 0 -> ~ In (bpak_id name) (map (fun e : parth * bytes => p_id (fst e)) es) -> (length es < 32)%nat ->
  0 <= flags < 256 -> Z.testbit flags 1 = false -> zlen (pk_file p) + zlen data + 512 <= 2^63 ->
  let e := (new_part p (bpak_id name) data flags, data ++ zeros (padding (zlen data))) in
  exists p', pkg_add_file sha (mkPkg (pk_header p) (hd ++ concat (map snd es))) data name flags = (p', Ok tt) /\
    holds p' (es ++ [e]) /\ same_besides_parts (pk_header p) (pk_header p') /\ hash_current sha p' (es ++ [e]).
Proof.
  intros G H Lh P Hs Hnm Hid Hnin Hl Hfl Hft Hb e.
  pose proof (padding_range (zlen data)) as Hp. pose proof (zlen_nonneg data) as Hd. pose proof (zlen_nonneg (pk_file p)) as Hf.
  unfold pkg_add_file. cbn [pk_header pk_file]. rewrite (append_offset_spec p es H P). rewrite (add_part_holds p es _ H Hid).
  replace (existsb _ es) with false.
  2:{ symmetry. apply not_true_is_false. intros X. apply existsb_exists in X as (x & Hx & E).
      elim Hnin. apply Z.eqb_eq in E. rewrite <- E. now apply (in_map (fun e : parth * bytes => p_id (fst e))). }
  destruct (Nat.leb_spec 32 (length es)); [lia|].
  rewrite pad_for_padding by lia. rewrite filled_header by auto.
  rewrite s64_small by lia. destruct (Z.ltb_spec (zlen (pk_file p)) 0); [lia|].
  assert (Lp : zlen (pk_file p) = zlen (hd ++ concat (map snd es))).
  { rewrite (ho_file _ _ H), !zlen_app, zlen_enc_header by apply (ho_wf _ _ H). lia. }
  pose proof (copy_in_spec (Z.to_nat (zlen data / CHUNK + 1)) (hd ++ concat (map snd es)) data ltac:(lia) ltac:(unfold CHUNK; lia)) as Cp.
  unfold bytes in *. rewrite <- Lp in Cp. rewrite Cp. cbv beta iota.
  rewrite fwrite_at_end by (rewrite zlen_app; lia). rewrite <- app_assoc.
  apply append_commit_gen; auto.
  - apply wf_new_part; try lia. now apply bpak_id_bound.
  - unfold stored_size, new_part. cbn [p_flags p_size p_pad_bytes]. rewrite Hft, zlen_app, zlen_zeros. lia.
  - rewrite zlen_app, zlen_zeros. lia.
  - rewrite !zlen_app, zlen_zeros, Lh. pose proof (zlen_nonneg (concat (map snd es))). lia.
  - rewrite <- app_assoc, zdrop_app_r by lia. rewrite Lh, Z.sub_diag, zdrop_0. reflexivity.
Qed.

Theorem add_file_ok sha p es data name flags : good_hash sha -> holds p es -> plain es ->
  hash_supported (h_hash_kind (pk_header p)) = true ->
  bytes_ok name -> bpak_id name <> 0 -> ~ In (bpak_id name) (map (fun e : parth * bytes => p_id (fst e)) es) -> (length es < 32)%nat ->
  0 <= flags < 256 -> Z.testbit flags 1 = false -> zlen (pk_file p) + zlen data + 512 <= 2^63 ->
  let e := (new_part p (bpak_id name) data flags, data ++ zeros (padding (zlen data))) in
  exists p', pkg_add_file sha p data name flags = (p', Ok tt) /\
    holds p' (es ++ [e]) /\ same_besides_parts (pk_header p) (pk_header p') /\ hash_current sha p' (es ++ [e]).
Proof.
  intros G H. pose proof (add_file_head sha p (enc_header (pk_header p)) es data name flags G H (zlen_enc_header _ (ho_wf _ _ H))) as X.
  rewrite <- (ho_file _ _ H) in X. destruct p. exact X.
Qed.

Theorem add_file_fails sha p es data name flags : holds p es -> bpak_id name <> 0 ->
  (In (bpak_id name) (map (fun e : parth * bytes => p_id (fst e)) es) -> pkg_add_file sha p data name flags = (p, Err E_EXISTS)) /\
  (~ In (bpak_id name) (map (fun e : parth * bytes => p_id (fst e)) es) -> length es = 32%nat ->
     pkg_add_file sha p data name flags = (p, Err E_NO_SPACE_LEFT)).
Proof.
  intros H Hid. unfold pkg_add_file. rewrite (add_part_holds p es _ H Hid). split.
  - intros Hin. replace (existsb _ es) with true; [destruct p; reflexivity|].
    symmetry. apply existsb_exists. apply in_map_iff in Hin as (x & E & Hx). exists x. split; auto. now apply Z.eqb_eq.
  - intros Hnin Hl. replace (existsb _ es) with false.
    + rewrite Hl. cbn [Nat.leb]. destruct p; reflexivity.
    + symmetry. apply not_true_is_false. intros X. apply existsb_exists in X as (x & Hx & E).
      elim Hnin. apply Z.eqb_eq in E. rewrite <- E. now apply (in_map (fun e : parth * bytes => p_id (fst e))).
Qed.
