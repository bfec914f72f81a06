(* PySignProofs.v -- sign and verify do what PySignSpec.v says *)
From Coq Require Import String.
From Verif Require Import BaseLemmas HeaderModel HeaderSpec CodecProofs PartProofs MetaProofs CrcModel CrcProofs HashModel MerkleModel
  MerkleSpec MerkleApi VerifyModel VerifySpec VerifyProofs VerifySign VerifyAgree VerifyWitness PkgModel PkgSpec PkgProofs PkgAdd PkgDelete PkgHistory PkgApi PkgTrees PkgMerkle
  CliSign PyModel PySpec PyInv PyProofs PySession PyFrozen PyHash PyClaims PySignModel PySignSpec.
Local Open Scope Z_scope.
Local Open Scope list_scope.

(* header [h] in memory; file [f] with any header and the files of [a] *)
Definition disk (h : header) (f : bytes) (a : apkg) : Prop :=
  hinv h a /\ exists hd : bytes, zlen hd = 4096 /\ f = hd ++ body (a_files a).
Lemma disk_inv s a : py_inv s a -> disk (st_header s) (st_file s) a.
Proof.
  intros Iv. split; [exact (iv_h _ _ Iv)|]. destruct (iv_file _ _ Iv) as (x & X1 & X2 & X3). eexists. split; [|exact X3].
  apply zlen_enc_header. exact (hi_wf _ _ (hinv_hash _ _ x (iv_h _ _ Iv) X1 X2)).
Qed.

Lemma disk_ready h f a : disk h f a ->
  wf_header h /\ sizes_ok (h_parts h) /\ 4096 + sum_sizes (h_parts h) < 2^63 /\ 4096 <= zlen f /\
  payload_present f 4096 (h_parts h) /\ hashed_payload f 4096 (h_parts h) = files_covered (a_files a).
Proof.
  intros [Hh (hd & Z1 & Z3)].
  destruct (hi_es _ _ Hh) as (es & H & O & F). pose proof (hi_wf _ _ Hh) as W.
  assert (T : h_parts h = table (map fst es)) by exact (holds_table _ _ H).
  assert (Wp : Forall wf_part (map fst es)) by exact (wf_parts_app _ _ _ (ho_wf _ _ H) (ho_table _ _ H)).
  pose proof (hinv_bound _ _ Hh) as Bd. unfold stored_bytes in Bd. fold (body (a_files a)) in Bd. rewrite <- (body_eq _ _ F) in Bd.
  assert (Sz : sizes_ok (h_parts h)) by (rewrite T; apply sizes_of; [apply (ho_sizes _ _ H)|exact Wp|lia]).
  destruct (payload_of_contents f hd es []) as [P1 P2].
  { exact Z1. }
  { rewrite app_nil_r, (body_eq _ _ F). exact Z3. }
  { apply (ho_sizes _ _ H). }
  { apply (ho_nonzero _ _ H). }
  rewrite <- T in P1, P2. split; [exact W|]. split; [exact Sz|]. split.
  { pose proof (ho_table _ _ H) as Ht. unfold headed in Ht. cbn [pk_header] in Ht. rewrite Ht, sum_sizes_app, sum_zero_parts.
    rewrite sum_contents in Bd by apply (ho_sizes _ _ H). lia. }
  split. { rewrite Z3, zlen_app, Z1. pose proof (zlen_nonneg (body (a_files a))). lia. }
  split; [exact P1|]. rewrite P2. now apply files_covered_eq.
Qed.
Lemma disk_payload sha h f a : disk h f a -> hash_supported (a_kind a) = true ->
  compute_payload_hash sha h (file_rd f) 4096 64 = Ok (sha (a_kind a) (files_covered (a_files a))).
Proof.
  intros D S. destruct (disk_ready _ _ _ D) as (W & Sz & _ & _ & P1 & P2). destruct D as [Hh _].
  pose proof (hi_attr _ _ Hh HashKind) as Ek. cbn [get_attr a_get] in Ek. rewrite <- Ek in *.
  destruct (payload_hash_spec sha h f 4096 64 Sz ltac:(lia)) as [_ V]. destruct (V S) as [_ V2]. destruct (V2 P1) as [_ V3].
  pose proof (digest_len_le (h_hash_kind h)). rewrite V3 by lia. now rewrite P2.
Qed.
Lemma disk_unsupported sha h f a : disk h f a -> hash_supported (a_kind a) = false ->
  compute_payload_hash sha h (file_rd f) 4096 64 = Err E_UNSUPPORTED_HASH_ALG.
Proof.
  intros [Hh _] S. pose proof (hi_attr _ _ Hh HashKind) as Ek. cbn [get_attr a_get] in Ek. rewrite <- Ek in S.
  unfold compute_payload_hash, hash_init. rewrite S. reflexivity.
Qed.

(* ---- hash trees ---- *)
Lemma trees_good_holds sha p (es : list (parth * bytes)) a : good_hash sha -> holds p es -> Forall2 file_matches (a_files a) es ->
  metas_are (h_meta (pk_header p)) (h_metadata (pk_header p)) (a_metas a) -> trees_good sha a ->
  verify_trees_loop sha (pk_header p) (file_rd (pk_file p)) 4096 (h_parts (pk_header p)) = Ok tt.
Proof.
  intros G H F M [T1 T2].
  assert (Nz : forall e : parth * bytes, In e es -> p_id (fst e) <> 0).
  { pose proof (ho_nonzero _ _ H) as N. rewrite Forall_forall in N. exact N. }
  apply (trees_iff sha p es (a_metas a)); auto.
  - apply Forall_forall. intros e He Ht. apply (T1 e He). exact Ht.
  - intros e root He Hr. destruct (T2 _ Hr eq_refl) as (name & g & t & salt & ls & E1 & _ & _ & _ & Ht & E2 & _). cbn [e_ref] in E1.
    destruct (in_matches _ _ _ F Ht) as (y & Hy & My). destruct My as (_ & Ex & _). rewrite E1.
    rewrite tree_id_eq, <- E2, <- Ex. now apply Nz.
  - intros e root He Hr. destruct (T2 _ Hr eq_refl) as (name & g & t & salt & ls & E1 & _ & Hf & Efi & Ht & Et & Hsa & L1 & L2 & Hls & Etd & Ev).
    cbn [e_ref e_val] in E1, Ev.
    destruct (in_matches _ _ _ F Hf) as (xf & Hxf & Mf1 & Mf2 & Mf3 & Mf4 & Mf5). destruct (in_matches _ _ _ F Ht) as (xt & Hxt & Mt1 & Mt2 & Mt3 & Mt4 & Mt5).
    assert (Exf : e = xf) by (apply (same_entry es); auto; [apply (ho_distinct _ _ H)|congruence]). subst xf.
    exists salt, xt. split; [rewrite E1; exact Hsa|]. split; [exact Hxt|]. split.
    { rewrite E1, tree_id_eq, <- Et. exact Mt2. }
    assert (Lsalt : zlen salt = 32) by (apply (T1 _ Hsa); left; reflexivity).
    destruct (build_tree_ok sha (f_data g) salt ls G L1 L2 Lsalt Hls) as (_ & _ & Lt).
    pose proof (padding_block _ L2) as Pf. pose proof (padding_block _ Lt) as Pt.
    unfold file_stored in Mf1, Mt1. rewrite Etd in *. rewrite Pf in Mf1, Mf5. rewrite Pt in Mt1, Mt5. change (zeros 0) with (@nil Z) in *. rewrite app_nil_r in Mf1, Mt1.
    destruct e as [q c], xt as [qt ct]. cbn [fst snd] in *. subst c ct.
    pose proof (in_split _ _ Hxf) as (a1 & b & Es). pose proof (in_split _ _ Hxt) as (a2 & b2 & Es2).
    pose proof H as H1. rewrite Es in H1. pose proof H as H2. rewrite Es2 in H2.
    rewrite (part_offset_at _ _ _ _ _ H1), (part_offset_at _ _ _ _ _ H2).
    destruct (entry_wf _ _ _ H Hxf) as (Wq & Sq & Bq). cbn [fst snd] in *.
    rewrite part_size_stored by (auto; lia). rewrite <- Sq.
    pose proof (ho_file _ _ H1) as F1. pose proof (ho_file _ _ H2) as F2. pose proof (zlen_enc_header _ (ho_wf _ _ H)) as Le.
    rewrite map_app, concat_app in F1, F2. cbn [map snd concat] in F1, F2.
    assert (LP : zlen (enc_header (pk_header p) ++ concat (map snd a2)) = 4096 + zlen (concat (map snd a2))) by (rewrite zlen_app; lia).
    rewrite <- LP, Ev. pose proof (zlen_nonneg (concat (map snd a1))). pose proof (zlen_nonneg (concat (map snd b))).
    apply (verify_genuine sha (pk_file p) _ (concat (map snd b2)) ls); auto; try lia.
    + rewrite F2, <- !app_assoc. reflexivity.
    + rewrite F1, !zlen_app. lia.
    + rewrite F1, app_assoc. apply slice_app_exact; [rewrite zlen_app; lia|reflexivity].
Qed.
Lemma trees_good_verify sha h f a : good_hash sha -> disk h f a -> trees_good sha a ->
  verify_trees_loop sha h (file_rd f) 4096 (h_parts h) = Ok tt.
Proof.
  intros G D T. destruct (disk_ready _ _ _ D) as (W & Sz & Sm & _ & _ & _). destruct D as [Hh (hd & X1 & X3)].
  destruct (hi_es _ _ Hh) as (es & H & O & F). pose proof (hi_metas _ _ Hh) as M.
  rewrite <- (trees_good_holds sha (headed h es) es a G H F M T). unfold headed. cbn [pk_header pk_file].
  apply trees_loop_ext; auto.
  - intros o n Ho. unfold file_rd, fread_at. destruct (o <? 0); [reflexivity|]. rewrite X3, (body_eq _ _ F).
    assert (Q : slice o n (hd ++ body (a_files a)) = slice o n (enc_header h ++ body (a_files a))).
    { unfold slice. f_equal. replace o with ((o - 4096) + 4096) by lia. rewrite <- !zdrop_zdrop by lia. f_equal.
      rewrite !zdrop_app_r by (rewrite ?zlen_enc_header; auto; lia). rewrite X1, zlen_enc_header by exact W. reflexivity. }
    now rewrite Q.
  - intros p. apply part_offset_lower; auto.
Qed.

Lemma with_pkg_id s : with_pkg s (py_pkg (st_obj s)) = s.
Proof. destruct s as [[? ?] ?]. reflexivity. Qed.
Lemma pkg_of s : py_pkg (st_obj s) = mkPkg (st_header s) (st_file s).
Proof. destruct s as [[? [? ?]] ?]. reflexivity. Qed.
Lemma inv_signature s a : py_inv s a -> h_signature_sz (st_header s) <= 512 /\
  slice 0 (h_signature_sz (st_header s)) (h_signature (st_header s)) = a_sig a.
Proof.
  intros Iv. destruct (hi_sig _ _ (iv_h _ _ Iv)) as (S1 & S2 & S3). rewrite S2. split; [exact S1|]. now rewrite slice_0.
Qed.
Lemma inv_kind s a : py_inv s a -> h_hash_kind (st_header s) = a_kind a.
Proof. intros Iv. exact (hi_attr _ _ (iv_h _ _ Iv) HashKind). Qed.

(* updating the payload hash *)
Definition rehashed (sha : hashfn) (h : header) (a : apkg) : header :=
  HeaderModel.with_payload_hash h (splice 0 (sha (a_kind a) (files_covered (a_files a))) (h_payload_hash h)).
Lemma rehashed_hash sha h f a : good_hash sha -> disk h f a -> hash_supported (a_kind a) = true ->
  let y := splice 0 (sha (a_kind a) (files_covered (a_files a))) (h_payload_hash h) in
  zlen y = 64 /\ bytes_ok y /\ slice 0 (digest_len (a_kind a)) y = sha (a_kind a) (files_covered (a_files a)) /\ hinv (rehashed sha h a) a /\
  wf_header (rehashed sha h a).
Proof.
  intros G [Hh _] S y. destruct (G (a_kind a) (files_covered (a_files a)) S) as [D1 D2]. destruct (wf_payload_hash h (hi_wf _ _ Hh)) as [L1 L2].
  pose proof (digest_len_le (a_kind a)) as Dl. pose proof (zlen_nonneg (sha (a_kind a) (files_covered (a_files a)))).
  assert (Y1 : zlen y = 64) by (unfold y; rewrite zlen_splice; lia).
  assert (Y2 : bytes_ok y) by (unfold y; apply bytes_ok_splice; auto).
  assert (Hy : hinv (rehashed sha h a) a) by (apply hinv_hash; auto).
  split; [exact Y1|]. split; [exact Y2|]. split; [unfold y; rewrite <- D1; apply slice_splice_same; lia|]. split; [exact Hy|exact (hi_wf _ _ Hy)].
Qed.
Lemma update_inv sha h f a room : good_hash sha -> disk h f a ->
  pkg_update_hash sha (mkPkg h f) room =
  if hash_supported (a_kind a)
  then (mkPkg (rehashed sha h a) f,
        match room with None => Ok None | Some n => compute_header_hash sha (rehashed sha h a) n end)
  else (mkPkg h f, Err E_UNSUPPORTED_HASH_ALG).
Proof.
  intros G D. unfold pkg_update_hash. cbn [pk_header pk_file]. change HDR_SIZE with 4096. destruct (hash_supported (a_kind a)) eqn:S.
  - rewrite (disk_payload sha h f a D S). destruct room; reflexivity.
  - rewrite (disk_unsupported sha h f a D S). reflexivity.
Qed.
Lemma rehashed_same sha h a : good_hash sha -> wf_header h -> hash_supported (a_kind a) = true ->
  slice 0 (digest_len (a_kind a)) (h_payload_hash h) = sha (a_kind a) (files_covered (a_files a)) -> rehashed sha h a = h.
Proof.
  intros G W S C. unfold rehashed. destruct (G (a_kind a) (files_covered (a_files a)) S) as [D1 D2]. destruct (wf_payload_hash h W) as [L1 L2].
  pose proof (digest_len_le (a_kind a)). rewrite splice_same_slice; [apply hash_id| |].
  - rewrite D1. lia.
  - rewrite D1. exact C.
Qed.
Lemma rehashed_unsigned sha h a sig n : unsigned (with_signature (rehashed sha h a) sig n) = unsigned (rehashed sha h a).
Proof. reflexivity. Qed.

Section Steps.
Context {K : Type} (sha : hashfn) (sg : sigscheme K) (pub_of : K -> K) (junk : bytes).
Context (G : good_hash sha) (C : correct_scheme sg pub_of) (Tot : total_scheme sg).

(* the signature in the file is good *)
Definition signed (s : pyst) (a : apkg) (k : K) : Prop :=
  synced s /\ current sha s a /\ hash_supported (a_kind a) = true /\
  sg_verify sg (a_sig a) (sha (a_kind a) (enc_header (unsigned (st_header s)))) (a_kind a) (pub_of k) = Ok true.
Definition inv2 (s : pyst) (x : apkg * option K) : Prop := py_inv s (fst x) /\ forall k, snd x = Some k -> signed s (fst x) k.

(* ---- verify ---- *)
Lemma verify_result h f a k : disk h f a -> trees_good sha a ->
  pkg_verify sha sg junk (mkPkg h f) k = Ok tt \/ exists e, pkg_verify sha sg junk (mkPkg h f) k = Err e.
Proof using G Tot.
  intros D T. unfold pkg_verify. cbn [pk_header pk_file]. destruct (disk_ready _ _ _ D) as (W & _). pose proof (proj1 D) as Hh.
  pose proof (hi_attr _ _ Hh HashKind) as Ek. cbn [get_attr a_get] in Ek.
  destruct (hash_supported (a_kind a)) eqn:S.
  2:{ right. rewrite header_hash_unsupported by (rewrite Ek; exact S). eexists. reflexivity. }
  pose proof (digest_len_le (a_kind a)). rewrite header_hash_spec by (rewrite ?Ek; auto; lia). cbn [bind].
  destruct (hi_sig _ _ Hh) as (S1 & S2 & S3). destruct (Z.gtb_spec (h_signature_sz h) 512); [lia|].
  match goal with |- context[sg_verify sg ?a ?b ?c ?d] => destruct (Tot a b c d) as [[b' ->]|[e ->]]; [|right; exists e; reflexivity] end.
  cbn [bind]. destruct b'; [|right; eexists; reflexivity].
  unfold verify_payload. change HDR_SIZE with 4096. rewrite (disk_payload sha h f a D S). cbn [bind].
  destruct (bytes_eqb _ _); [|right; eexists; reflexivity]. left. now apply (trees_good_verify sha h f a).
Qed.
Lemma verify_signed h f a k : disk h f a -> trees_good sha a -> hash_supported (a_kind a) = true ->
  slice 0 (digest_len (a_kind a)) (h_payload_hash h) = sha (a_kind a) (files_covered (a_files a)) ->
  sg_verify sg (a_sig a) (sha (a_kind a) (enc_header (unsigned h))) (a_kind a) k = Ok true ->
  pkg_verify sha sg junk (mkPkg h f) k = Ok tt.
Proof using G.
  intros D T S Cu V. destruct (disk_ready _ _ _ D) as (W & Sz & _ & _ & P1 & P2). pose proof (proj1 D) as Hh.
  pose proof (hi_attr _ _ Hh HashKind) as Ek. cbn [get_attr a_get] in Ek. destruct (hi_sig _ _ Hh) as (S1 & S2 & S3).
  apply (pkg_verify_ok sha sg G junk (mkPkg h f) k W Sz). cbn [pk_header pk_file]. rewrite Ek, S2, slice_0, S3, P2.
  split; [exact S|]. split; [exact S1|]. split; [exact V|]. split; [exact P1|]. split; [exact Cu|]. exact (trees_good_verify sha h f a G D T).
Qed.
Lemma step_verify s a g k : inv2 s (a, g) -> ok2 sha sg (a, g) (Verify k) ->
  exists r x', py_step2 sha sg junk s (Verify k) = (s, r) /\ r <> Crash /\ r <> Hang /\ spec2 pub_of (a, g) (Verify k) r x' /\ x' = (a, g).
Proof using G Tot.
  intros [Iv Sg] Ok. cbn [py_step2]. unfold py_verify. destruct k as [k|].
  2:{ exists (Exc XError), (a, g). split; [reflexivity|]. split; [discriminate|]. split; [discriminate|]. cbn [spec2]. auto. }
  cbn [fst snd ok2] in *. pose proof (disk_inv _ _ Iv) as D.
  assert (Ec : forall r, call_c s (py_pkg (st_obj s), r) = match r with Ok _ => (s, inr tt) | Err _ => (s, inl (Exc XError)) | UB => (s, inl Crash) | Stuck => (s, inl Hang) end).
  { intros r. unfold call_c. cbn [snd fst]. rewrite (iv_fp _ _ Iv), with_pkg_id. destruct r; reflexivity. }
  rewrite Ec, pkg_of.
  destruct (verify_result _ _ a k D Ok) as [V|[e V]]; rewrite V.
  - exists (Val (VBool true)), (a, g). split; [reflexivity|]. split; [discriminate|]. split; [discriminate|]. cbn [spec2]. auto 10.
  - exists (Exc XError), (a, g). split; [reflexivity|]. split; [discriminate|]. split; [discriminate|]. split; [|reflexivity]. cbn [spec2].
    split; [reflexivity|]. split; [reflexivity|]. split; [auto|]. intros k' -> ->. exfalso.
    destruct (Sg k' eq_refl) as (_ & Cu & S & Vs). rewrite (verify_signed _ _ a (pub_of k') D Ok S Cu Vs) in V. discriminate.
Qed.
(* ---- sign ---- *)
Lemma hash_only s a y : py_inv s a -> zlen y = 64 -> bytes_ok y ->
  py_inv (with_pkg s (mkPkg (HeaderModel.with_payload_hash (st_header s) y) (st_file s))) a.
Proof using.
  intros [I1 I2 I3 I4 I5] L B. constructor; auto. now apply (hinv_hash _ a y).
Qed.
Lemma signed_same s s' a k : st_header s' = st_header s -> st_file s' = st_file s -> signed s a k -> signed s' a k.
Proof using. unfold signed, synced, current. intros -> ->. auto. Qed.
(* the payload hash is updated in memory *)
Lemma rehash_inv2 s a g : inv2 s (a, g) -> hash_supported (a_kind a) = true ->
  inv2 (with_pkg s (mkPkg (rehashed sha (st_header s) a) (st_file s))) (a, g).
Proof using G.
  intros [Iv Sg] S. cbn [fst snd] in *. destruct (rehashed_hash sha _ _ a G (disk_inv _ _ Iv) S) as (Y1 & Y2 & _).
  split; [now apply hash_only|]. cbn [fst snd]. intros k Hk. specialize (Sg k Hk). eapply signed_same; [| |exact Sg]; [|reflexivity].
  cbn. apply rehashed_same; auto; [exact (hi_wf _ _ (iv_h _ _ Iv))|]. destruct Sg as (_ & Cu & _). exact Cu.
Qed.
Definition goes2 (s : pyst) (x : apkg * option K) (c : pycall2 K) : Prop :=
  exists s' r x', py_step2 sha sg junk s c = (s', r) /\ r <> Crash /\ r <> Hang /\ spec2 pub_of x c r x' /\ inv2 s' x'.
Lemma call_open s x : py_fp (st_obj s) = FpOpen true -> call_c s x =
  match snd x with Ok _ => (with_pkg s (fst x), inr tt) | Err _ => (with_pkg s (fst x), inl (Exc XError)) | UB => (s, inl Crash) | Stuck => (s, inl Hang) end.
Proof using. intros F. unfold call_c. rewrite F. destruct (snd x); reflexivity. Qed.
Lemma sign_eq s key : py_fp (st_obj s) = FpOpen true -> py_sign sha sg junk s key =
  match call_c s (match key with None => sign_no_key sha (py_pkg (st_obj s)) | Some k => pkg_sign sha sg junk (py_pkg (st_obj s)) k end) with
  | (s', inl r) => (s', r) | (s', inr _) => (s', Val (VBool true)) end.
Proof using. intros F. unfold py_sign. rewrite F. reflexivity. Qed.
Lemma head64 h : wf_header h -> hash_supported (h_hash_kind h) = true ->
  compute_header_hash sha h 64 = Ok (Some (sha (h_hash_kind h) (enc_header (unsigned h)))).
Proof using. intros W S. pose proof (digest_len_le (h_hash_kind h)). apply header_hash_spec; auto; lia. Qed.
Lemma pkg_sign_inv s a k : py_inv s a -> pkg_sign sha sg junk (py_pkg (st_obj s)) k =
  if hash_supported (a_kind a) then
    match sg_sign sg (sha (a_kind a) (enc_header (unsigned (rehashed sha (st_header s) a)))) (a_kind a) k with
    | Ok sig => (pkg_write_header (mkPkg (with_signature (rehashed sha (st_header s) a) (splice 0 sig (zeros 512)) (u16 (zlen sig))) (st_file s)), Ok tt)
    | Err e => (mkPkg (with_signature (rehashed sha (st_header s) a) (zeros 512) (h_signature_sz (st_header s))) (st_file s), Err e)
    | UB => (mkPkg (rehashed sha (st_header s) a) (st_file s), UB)
    | Stuck => (mkPkg (rehashed sha (st_header s) a) (st_file s), Stuck)
    end
  else (py_pkg (st_obj s), Err E_UNSUPPORTED_HASH_ALG).
Proof using G.
  intros Iv. pose proof (disk_inv _ _ Iv) as D. pose proof (inv_kind _ _ Iv) as Ek.
  unfold pkg_sign. rewrite pkg_of, (update_inv sha _ _ a (Some 64) G D). destruct (hash_supported (a_kind a)) eqn:S; [|reflexivity].
  destruct (rehashed_hash sha _ _ a G D S) as (_ & _ & _ & _ & W). rewrite head64; [|exact W|cbn; rewrite Ek; exact S].
  cbn [pk_header pk_file]. change (h_hash_kind (rehashed sha (st_header s) a)) with (h_hash_kind (st_header s)). rewrite Ek.
  destruct (sg_sign _ _ _ _); reflexivity.
Qed.
Lemma step_sign s a g k : inv2 s (a, g) -> ok2 sha sg (a, g) (Sign k) -> goes2 s (a, g) (Sign k).
Proof using G C.
  intros I2 Ok. pose proof I2 as [Iv Sg]. cbn [fst snd] in Iv, Sg. pose proof (disk_inv _ _ Iv) as D. pose proof (iv_fp _ _ Iv) as Fp.
  unfold goes2. cbn [py_step2]. rewrite (sign_eq s k Fp), (call_open s _ Fp). destruct k as [k|].
  - rewrite (pkg_sign_inv s a k Iv). destruct (hash_supported (a_kind a)) eqn:S.
    2:{ exists s, (Exc XError), (a, g). cbn [snd fst]. rewrite with_pkg_id. split; [reflexivity|]. split; [discriminate|]. split; [discriminate|].
        split; [|exact I2]. cbn [spec2]. rewrite S. auto. }
    destruct (rehashed_hash sha _ _ a G D S) as (Y1 & Y2 & Y3 & Hr & W).
    set (h1 := rehashed sha (st_header s) a) in *. set (d := sha (a_kind a) (enc_header (unsigned h1))).
    destruct (G (a_kind a) (enc_header (unsigned h1)) S) as [D1 D2]. fold d in D1, D2.
    cbn [ok2] in Ok. destruct (Ok d (a_kind a) S D1) as (sig & Es). rewrite Es. destruct (C d (a_kind a) k sig D2 D1 S Es) as (L & B & V).
    cbn [snd fst]. set (h2 := with_signature h1 (splice 0 sig (zeros 512)) (u16 (zlen sig))).
    destruct (store_ok0 s a h2 (a_set_sig a sig) (VBool true) Iv (hinv_sig _ _ _ Hr L B) eq_refl eq_refl) as (s' & E & I' & Eh).
    unfold store in E. rewrite Fp in E. apply (f_equal fst) in E. cbn [fst] in E.
    exists s', (Val (VBool true)), (a_set_sig a sig, Some k). split; [rewrite E; reflexivity|]. split; [discriminate|]. split; [discriminate|]. split.
    { cbn [spec2]. rewrite S. exists sig. auto. }
    split; [exact I'|]. cbn [fst snd]. intros k' Hk. injection Hk as <-. unfold signed. cbn [a_set_sig a_kind a_sig]. split.
    { apply (touch_synced2 s a s' (a_set_sig a sig) Iv I'). rewrite Eh, <- E. reflexivity. }
    split. { unfold current. cbn [a_set_sig a_kind a_files]. rewrite Eh. exact Y3. }
    split; [exact S|]. rewrite Eh. exact V.
  - unfold sign_no_key. rewrite pkg_of, (update_inv sha _ _ a (Some 64) G D). destruct (hash_supported (a_kind a)) eqn:S.
    + destruct (rehashed_hash sha _ _ a G D S) as (_ & _ & _ & _ & W). rewrite head64; [|exact W|cbn; rewrite (inv_kind _ _ Iv); exact S].
      exists (with_pkg s (mkPkg (rehashed sha (st_header s) a) (st_file s))), (Exc XError), (a, g). split; [reflexivity|]. split; [discriminate|]. split; [discriminate|].
      split; [cbn [spec2]; auto|]. now apply rehash_inv2.
    + exists s, (Exc XError), (a, g). cbn [snd fst]. rewrite <- pkg_of, with_pkg_id. split; [reflexivity|]. split; [discriminate|]. split; [discriminate|].
      split; [cbn [spec2]; auto|exact I2].
Qed.
(* ---- other calls ---- *)
Lemma reading_still s c : reading c = true -> c <> KDigest -> st_obj (fst (py_step sha s c)) = st_obj s.
Proof using.
  intros R N. destruct c; cbn [reading] in R; try discriminate; try congruence; cbn [py_step]; try reflexivity.
  - unfold py_get_part. destruct (get_part _ _); reflexivity.
  - unfold py_get_meta. destruct (get_meta _ _ _); reflexivity.
  - unfold on_any. destruct (nth_error _ k); reflexivity.
  - unfold on_meta. destruct (nth_error _ k) as [[]|]; reflexivity.
  - unfold on_any. destruct (nth_error _ k); reflexivity.
  - unfold on_meta. destruct (nth_error _ k) as [[]|]; reflexivity.
  - unfold on_meta. destruct (nth_error _ k) as [[]|]; reflexivity.
  - unfold on_part. destruct (nth_error _ k) as [[]|]; reflexivity.
  - unfold on_part. destruct (nth_error _ k) as [[]|]; reflexivity.
  - unfold on_part. destruct (nth_error _ k) as [[]|]; reflexivity.
Qed.
Lemma digest_still s a : py_inv s a -> current sha s a -> hash_supported (a_kind a) = true -> fst (py_step sha s KDigest) = s.
Proof using G.
  intros Iv Cu S. cbn [py_step]. unfold py_digest. rewrite pkg_of, (update_inv sha _ _ a (Some 128) G (disk_inv _ _ Iv)), S.
  rewrite rehashed_same; auto; [|exact (hi_wf _ _ (iv_h _ _ Iv))].
  pose proof (digest_len_le (a_kind a)). rewrite header_hash_spec; [|exact (hi_wf _ _ (iv_h _ _ Iv))|rewrite (inv_kind _ _ Iv); auto|rewrite (inv_kind _ _ Iv); lia].
  rewrite (iv_fp _ _ Iv), <- pkg_of, with_pkg_id. reflexivity.
Qed.
Lemma reading_same_pkg a c r a' : reading c = true -> py_spec a c r a' ->
  a_kind a' = a_kind a /\ a_sig a' = a_sig a /\ a_files a' = a_files a.
Proof using.
  intros R S.
  assert (X : a_set_objs a' [] = a_set_objs a []).
  { destruct c; cbn [reading] in R; try discriminate; cbn [py_spec] in S.
    all: repeat match goal with
    | S : context[match ?t with _ => _ end] |- _ => destruct t eqn:?
    end; unfold a_new, a_news in S; try (destruct S as (? & _ & S)); injection S as ? ?; subst; reflexivity. }
  destruct a, a'. cbn in X. injection X as -> -> -> -> -> -> ->. auto.
Qed.
Lemma step_plain s a g c : inv2 s (a, g) -> py_ok a c -> goes2 s (a, g) (Plain c).
Proof using G.
  intros [Iv Sg] Ok. cbn [fst snd] in *. destruct (step_ok sha G s a Iv c Ok) as (s' & r & a' & E & R1 & R2 & Sp & I').
  exists s', r, (a', if reading c then g else None). split; [exact E|]. split; [exact R1|]. split; [exact R2|]. split; [cbn [spec2]; auto|].
  split; [exact I'|]. cbn [fst snd]. intros k Hk. destruct (reading c) eqn:R; [|discriminate]. specialize (Sg k Hk).
  destruct (reading_same_pkg _ _ _ _ R Sp) as (A1 & A2 & A3).
  assert (So : st_obj s' = st_obj s).
  { destruct Sg as (_ & Cu & S & _). replace s' with (fst (py_step sha s c)) by (rewrite E; reflexivity).
    destruct c; try discriminate R; try (apply reading_still; [exact R|discriminate]). now rewrite (digest_still s a Iv Cu S). }
  assert (Eh : st_header s' = st_header s) by (unfold st_header; now rewrite So).
  assert (Ef : st_file s' = st_file s) by (unfold st_file; now rewrite So).
  pose proof (signed_same s s' a k Eh Ef Sg) as Q. unfold signed, current in *. rewrite A1, A2, A3. exact Q.
Qed.
Theorem step2_ok s x c : inv2 s x -> ok2 sha sg x c -> goes2 s x c.
Proof using G C Tot.
  destruct x as [a g]. intros I2 Ok. destruct c as [c|k|k].
  - now apply step_plain.
  - now apply step_sign.
  - destruct (step_verify s a g k I2 Ok) as (r & x' & E & R1 & R2 & Sp & ->). exists s, r, (a, g). auto 10.
Qed.
Theorem run2_ok cs : forall s x, inv2 s x -> allowed2 sha sg pub_of x cs ->
  exists s' rs x', py_run2 sha sg junk s cs = (s', rs) /\ ~ In Crash rs /\ ~ In Hang rs /\ specs2 pub_of x cs rs x' /\ inv2 s' x'.
Proof using G C Tot.
  induction cs as [|c cs IH]; intros s x Iv Ok.
  - exists s, [], x. split; [reflexivity|]. split; [tauto|]. split; [tauto|]. split; [constructor|auto].
  - destruct Ok as [Oc Or].
    destruct (step2_ok s x c Iv Oc) as (s1 & r & x1 & E1 & R1 & R2 & S1 & I1).
    destruct (IH s1 x1 I1 (Or r x1 S1)) as (s2 & rs & x2 & E2 & R3 & R4 & S2 & I2).
    exists s2, (r :: rs), x2. cbn [py_run2]. rewrite E1, E2. split; [destruct r; congruence|].
    split; [intros [X|X]; contradiction|]. split; [intros [X|X]; contradiction|]. split; [|auto].
    econstructor; eauto.
Qed.
End Steps.
