(* PkgApi.v -- opening packages, sizes, adding keys *)
From Verif Require Import BaseLemmas HeaderModel HeaderSpec HeaderHistory CodecProofs PartProofs MetaProofs CrcModel CrcProofs HashModel MerkleModel
  VerifyModel VerifySpec VerifyProofs VerifySign VerifyWitness PkgModel PkgSpec PkgProofs PkgAdd PkgDelete PkgHistory.

(* ---- open ---- *)
Lemma open_existing sha w (f : bytes) : 4096 <= zlen f ->
  fst (pkg_open sha w f) = f /\
  (forall p, snd (pkg_open sha w f) = Ok p <->
     valid_header (dec_header (ztake 4096 f)) = Ok tt /\ p = mkPkg (dec_header (ztake 4096 f)) f) /\
  (forall e, snd (pkg_open sha w f) = Err e <-> valid_header (dec_header (ztake 4096 f)) = Err e).
Proof.
  intros L. unfold pkg_open, fread_at, HDR_SIZE. rewrite slice_0, zlen_ztake.
  replace (Z.max 0 (Z.min 4096 (zlen f)) =? 4096) with true by lia. cbn [fst snd].
  split; [reflexivity|]. destruct (valid_header_total (dec_header (ztake 4096 f))) as [E|[e E]]; rewrite E; cbn [bind].
  - split.
    + intros p. split; [intros X; injection X as <-; auto|intros [_ ->]; reflexivity].
    + intros e. split; discriminate.
  - split.
    + intros p. split; [discriminate|intros [X _]; discriminate].
    + intros e'. split; intros X; injection X as <-; reflexivity.
Qed.
Lemma reopen sha w p es : holds p es -> valid_header (pk_header p) = Ok tt ->
  pkg_open sha w (pk_file p) = (pk_file p, Ok p).
Proof.
  intros H V. pose proof (ho_file _ _ H) as F. pose proof (zlen_enc_header _ (ho_wf _ _ H)) as L.
  destruct (open_existing sha w (pk_file p)) as (A & B & _).
  { rewrite F, zlen_app. pose proof (zlen_nonneg (concat (map snd es))). lia. }
  assert (D : dec_header (ztake 4096 (pk_file p)) = pk_header p).
  { rewrite F, ztake_app_l, ztake_all by lia. apply dec_enc_header. apply (ho_wf _ _ H). }
  rewrite D in B. specialize (B p). destruct (pkg_open sha w (pk_file p)) as [f r]. cbn [fst snd] in *. subst f.
  f_equal. apply B. split; auto. destruct p; reflexivity.
Qed.
(* the header an empty package is created with *)
Definition fresh_header (sha : hashfn) : header := with_digest init_header (sha HASH_SHA256 []).
Lemma update_hash_init sha f : good_hash sha ->
  pkg_update_hash sha (mkPkg init_header f) None = (mkPkg (fresh_header sha) f, Ok None).
Proof.
  intros G. unfold pkg_update_hash. cbn [pk_header pk_file].
  destruct (payload_hash_spec sha init_header f HDR_SIZE 64) as [_ H].
  - apply Forall_forall. intros q Hq. cbn [h_parts init_header] in Hq. apply repeat_spec in Hq as ->.
    split; [exact wf_zero_part|reflexivity].
  - unfold HDR_SIZE. lia.
  - destruct (H eq_refl) as [_ H2].
    assert (U : used (h_parts init_header) = []) by reflexivity.
    destruct H2 as [_ H3].
    { unfold payload_present, hashed_parts. rewrite U. constructor. }
    rewrite H3 by (pose proof (digest_len_le (h_hash_kind init_header)); lia).
    unfold hashed_payload, hashed_parts. rewrite U. cbn [placed filter map concat]. reflexivity.
Qed.
Lemma fresh_wf sha : good_hash sha -> wf_header (fresh_header sha).
Proof.
  intros G. destruct (G HASH_SHA256 [] eq_refl) as [D1 D2]. pose proof (digest_len_le HASH_SHA256) as Dle.
  destruct (wf_payload_hash _ wf_init_header) as [L B].
  unfold fresh_header, with_digest. apply wf_with_payload_hash; [exact wf_init_header| |].
  - rewrite zlen_splice; lia.
  - now apply bytes_ok_splice.
Qed.
Lemma open_short sha (f : bytes) : good_hash sha -> zlen f < 4096 ->
  pkg_open sha false f = (f, Err E_WRITE_ERROR) /\
  pkg_open sha true f = (f ++ enc_header (fresh_header sha), Ok (mkPkg (fresh_header sha) (f ++ enc_header (fresh_header sha)))).
Proof.
  intros G L. unfold pkg_open, fread_at, HDR_SIZE. rewrite slice_0, zlen_ztake.
  replace (Z.max 0 (Z.min 4096 (zlen f)) =? 4096) with false by lia. rewrite update_hash_init by auto.
  cbn [negb pk_header pk_file]. rewrite fwrite_at_end by reflexivity. split; [reflexivity|].
  replace (valid_header (fresh_header sha)) with (@Ok unit tt) by reflexivity. reflexivity.
Qed.
(* a package created from an empty file is an empty package *)
Lemma fresh_inv sha : good_hash sha -> pkg_inv sha (mkPkg (fresh_header sha) (enc_header (fresh_header sha))) [].
Proof.
  intros G. pose proof (fresh_wf sha G) as W. pose proof (zlen_enc_header _ W) as L.
  destruct (G HASH_SHA256 [] eq_refl) as [D1 D2]. pose proof (digest_len_le HASH_SHA256) as Dle.
  constructor; cbn [pk_header pk_file].
  - exists []. split; [|split; [exact I|constructor]].
    constructor; cbn [pk_header pk_file map concat length]; auto.
    + lia.
    + constructor.
    + now rewrite app_nil_r.
    + rewrite L. lia.
  - constructor.
  - reflexivity.
  - reflexivity.
  - exists []. split; [exact metas_are_init|]. split; [cbn [length]; lia|].
    apply Forall_forall. intros m Hm. cbn [h_meta fresh_header with_digest VerifyModel.with_payload_hash init_header] in Hm.
    apply repeat_spec in Hm as ->. reflexivity.
  - change (h_payload_hash (fresh_header sha)) with (splice 0 (sha HASH_SHA256 []) (h_payload_hash init_header)).
    change (h_hash_kind (fresh_header sha)) with HASH_SHA256. unfold files_covered. cbn [filter map concat].
    rewrite <- D1. apply slice_splice_same; [lia|].
    destruct (wf_payload_hash _ wf_init_header) as [L2 _]. lia.
Qed.
Lemma open_short_not_reopenable sha (f : bytes) : good_hash sha -> 4 <= zlen f < 4096 ->
  unle (ztake 4 f) <> h_magic init_header ->
  let f' := fst (pkg_open sha true f) in
  (exists p, snd (pkg_open sha true f) = Ok p) /\ snd (pkg_open sha true f') = Err E_BAD_MAGIC.
Proof.
  intros G L M. destruct (open_short sha f G ltac:(lia)) as [_ E]. rewrite E. cbn [fst snd].
  split; [eexists; reflexivity|].
  pose proof (zlen_enc_header _ (fresh_wf sha G)) as Le.
  destruct (open_existing sha true (f ++ enc_header (fresh_header sha))) as (_ & _ & H).
  { rewrite zlen_app. lia. }
  apply H. unfold valid_header.
  replace (h_magic (dec_header (ztake 4096 (f ++ enc_header (fresh_header sha))))) with (unle (ztake 4 f)).
  - destruct (Z.eqb_spec (unle (ztake 4 f)) HEADER_MAGIC) as [X|X]; [|reflexivity].
    elim M. exact X.
  - unfold dec_header. cbn [h_magic]. rewrite slice_0, ztake_ztake, ztake_app_l by lia. reflexivity.
Qed.

(* ---- sizes ---- *)
Lemma installed_fold l : forall acc, 0 <= acc -> Forall wf_part l -> Forall (fun q => Z.testbit (p_flags q) 1 = false) l ->
  acc + sum_sizes l < 2^63 ->
  fold_left (fun a q => u64 (a + (p_size q + p_pad_bytes q))) l acc = acc + sum_sizes l.
Proof. intros. now apply append_fold. Qed.
Definition data_size (q : parth) : Z := if Z.testbit (p_flags q) 1 then p_transport_size q else p_size q.
Lemma size_fold l : forall acc, 0 <= acc -> Forall wf_part l -> acc + sum_sizes l < 2^63 ->
  fold_left (fun a q => u64 (a + (if has_flag q FLAG_TRANSPORT then p_transport_size q else p_size q))) l acc
   = acc + fold_right (fun q a => data_size q + a) 0 l.
Proof.
  induction l as [|q l IH]; intros acc Ha W B; cbn [fold_left fold_right]; [lia|].
  rewrite sum_sizes_cons in B. inversion W as [|? ? Wq Wl]; subst. pose proof (sum_sizes_nonneg l Wl).
  assert (Dq : 0 <= data_size q <= stored_size q).
  { unfold data_size, stored_size. destruct Wq as (_ & W2 & _ & W4 & W5 & _). destruct (Z.testbit _ _); lia. }
  rewrite has_flag_transport. fold (data_size q). unfold u64 at 2. rewrite Z.mod_small by lia.
  rewrite IH by (auto; lia). lia.
Qed.
Lemma sizes_general p es : holds p es ->
  pkg_size p = 4096 + fold_right (fun (e : parth * bytes) a => data_size (fst e) + a) 0 es /\
  (plain es -> pkg_installed_size p = zlen (concat (map snd es))) /\
  zlen (pk_file p) = 4096 + zlen (concat (map snd es)).
Proof.
  intros H. pose proof (ho_bound _ _ H) as B. pose proof (ho_sizes _ _ H) as S.
  destruct (wf_parts _ (ho_wf _ _ H)) as [_ W].
  rewrite (ho_file _ _ H), zlen_app, zlen_enc_header in * by apply (ho_wf _ _ H).
  rewrite sum_contents in * by auto.
  assert (Sm : sum_sizes (h_parts (pk_header p)) = sum_sizes (map fst es)).
  { rewrite (ho_table _ _ H), sum_sizes_app, sum_zero_parts. lia. }
  split; [|split; [|lia]].
  - unfold pkg_size. rewrite size_fold by (auto; lia).
    rewrite (ho_table _ _ H), fold_right_app.
    assert (Z0 : forall n, fold_right (fun q a => data_size q + a) 0 (repeat zero_part n) = 0).
    { induction n as [|n IH]; [reflexivity|]. cbn [repeat fold_right]. rewrite IH. reflexivity. }
    rewrite Z0. unfold HDR_SIZE.
    assert (X : fold_right (fun q a => data_size q + a) 0 (map fst es) =
                fold_right (fun (e : parth * bytes) a => data_size (fst e) + a) 0 es).
    { clear. induction es as [|e es IH]; [reflexivity|]. cbn [map fold_right]. now rewrite IH. }
    rewrite X.
    assert (Y : 0 <= fold_right (fun (e : parth * bytes) a => data_size (fst e) + a) 0 es <= sum_sizes (map fst es)).
    { pose proof (wf_parts_app _ _ _ (ho_wf _ _ H) (ho_table _ _ H)) as Wp. clear - Wp.
      induction es as [|e es IH]; [cbn; lia|]. cbn [map] in Wp. inversion Wp as [|? ? Wq Wl]; subst.
      cbn [map fold_right]. rewrite sum_sizes_cons. specialize (IH Wl).
      assert (Dq : 0 <= data_size (fst e) <= stored_size (fst e)).
      { unfold data_size, stored_size. destruct Wq as (_ & W2 & _ & W4 & W5 & _). destruct (Z.testbit _ _); lia. }
      lia. }
    unfold u64. rewrite Z.mod_small by lia. lia.
  - intros P. unfold pkg_installed_size. rewrite append_fold; try lia; auto.
    rewrite (ho_table _ _ H). apply Forall_app. split.
    + now apply Forall_map.
    + apply Forall_forall. intros x Hx. apply repeat_spec in Hx as ->. reflexivity.
Qed.
Theorem size_spec sha p fs : pkg_inv sha p fs ->
  zlen (pk_file p) = 4096 + zlen (concat (map file_stored fs)) /\
  pkg_installed_size p = zlen (concat (map file_stored fs)) /\
  pkg_size p = 4096 + zlen (concat (map f_data fs)).
Proof.
  intros [(es & H & _ & F) P _ _ _ _]. destruct (sizes_general p es H) as (A & B & C).
  assert (E1 : map snd es = map file_stored fs).
  { clear - F. induction F as [|f e fs es (H1 & _) _ IH]; [reflexivity|]. cbn [map]. now rewrite H1, IH. }
  rewrite <- E1. split; [exact C|]. split; [apply B; eapply plain_of; eauto|].
  rewrite A. f_equal. clear - F P. induction F as [|f e fs es (H1 & H2 & H3 & H4 & _) _ IH]; [reflexivity|].
  inversion P; subst. cbn [fold_right map concat]. rewrite zlen_app, <- IH by auto. f_equal.
  unfold data_size. rewrite H3, H4. destruct (Z.testbit (f_flags f) 1); [discriminate|reflexivity].
Qed.

(* ---- keys ---- *)
Lemma add_key_ub sha p es key name flags : holds p es -> bpak_id name <> 0 ->
  ~ In (bpak_id name) (map (fun e : parth * bytes => p_id (fst e)) es) -> (length es < 32)%nat ->
  plain es -> 1 < padding (zlen key) -> snd (pkg_add_key sha p key name flags) = UB.
Proof.
  intros H Hid Hnin Hl P Hp. unfold pkg_add_key.
  rewrite (append_offset_spec p es H P). rewrite (add_part_holds p es _ H Hid).
  replace (existsb _ es) with false.
  2:{ symmetry. apply not_true_is_false. intros X. apply existsb_exists in X as (x & Hx & E).
      elim Hnin. apply Z.eqb_eq in E. rewrite <- E. now apply (in_map (fun e : parth * bytes => p_id (fst e))). }
  destruct (Nat.leb_spec 32 (length es)); [lia|].
  rewrite pad_for_padding by apply zlen_nonneg.
  pose proof (ho_bound _ _ H). pose proof (zlen_nonneg (pk_file p)).
  rewrite s64_small by lia. destruct (Z.ltb_spec (zlen (pk_file p)) 0); [lia|].
  replace (padding (zlen key) >? 1) with true by lia. reflexivity.
Qed.
Lemma add_key_ok sha p es key name flags : good_hash sha -> holds p es -> plain es ->
  hash_supported (h_hash_kind (pk_header p)) = true ->
  bytes_ok name -> bpak_id name <> 0 -> ~ In (bpak_id name) (map (fun e : parth * bytes => p_id (fst e)) es) -> (length es < 32)%nat ->
  0 <= flags < 256 -> Z.testbit flags 1 = false -> zlen (pk_file p) + zlen key + 512 <= 2^63 ->
  padding (zlen key) <= 1 ->
  let e := (new_part p (bpak_id name) key flags, key ++ zeros (padding (zlen key))) in
  exists p', pkg_add_key sha p key name flags = (p', Ok tt) /\
    holds p' (es ++ [e]) /\ same_besides_parts (pk_header p) (pk_header p') /\ hash_current sha p' (es ++ [e]) /\
    pkg_extract_file p' (bpak_id name) = (Some key, Ok tt).
Proof.
  intros G H P Hs Hnm Hid Hnin Hl Hfl Hft Hb Hp1 e.
  pose proof (padding_range (zlen key)) as Hp. pose proof (zlen_nonneg key) as Hd. pose proof (zlen_nonneg (pk_file p)) as Hf.
  unfold pkg_add_key. rewrite (append_offset_spec p es H P). rewrite (add_part_holds p es _ H Hid).
  replace (existsb _ es) with false.
  2:{ symmetry. apply not_true_is_false. intros X. apply existsb_exists in X as (x & Hx & E).
      elim Hnin. apply Z.eqb_eq in E. rewrite <- E. now apply (in_map (fun e : parth * bytes => p_id (fst e))). }
  destruct (Nat.leb_spec 32 (length es)); [lia|].
  rewrite pad_for_padding by lia. rewrite filled_header by auto.
  rewrite s64_small by lia. destruct (Z.ltb_spec (zlen (pk_file p)) 0); [lia|].
  replace (padding (zlen key) >? 1) with false by lia.
  rewrite (fwrite_at_end (pk_file p)) by reflexivity.
  rewrite fwrite_at_end by (rewrite zlen_app; reflexivity). rewrite <- app_assoc.
  destruct (append_commit sha p es (new_part p (bpak_id name) key flags) (key ++ zeros (padding (zlen key)))) as (p' & E & H' & S & D); auto.
  - apply wf_new_part; try lia. now apply bpak_id_bound.
  - unfold stored_size, new_part. cbn [p_flags p_size p_pad_bytes]. rewrite Hft, zlen_app, zlen_zeros. lia.
  - rewrite zlen_app, zlen_zeros. lia.
  - exists p'. split; [exact E|]. split; [exact H'|]. split; [exact S|]. split; [exact D|].
    change (bpak_id name) with (p_id (new_part p (bpak_id name) key flags)).
    eapply (extract_at p' es _ key (padding (zlen key)) []); auto.
Qed.
