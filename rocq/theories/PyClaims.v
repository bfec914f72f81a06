(* PyClaims.v -- opening, read-only packages, closed packages, truncation, oversized metadata *)
From Verif Require Import BaseLemmas HeaderModel HeaderSpec HeaderHistory CodecProofs PartProofs MetaProofs CrcModel CrcProofs HashModel MerkleModel
  VerifyModel VerifySpec VerifyProofs VerifySign VerifyWitness PkgModel PkgSpec PkgProofs PkgAdd PkgDelete PkgHistory PkgApi
  PyModel PySpec PyInv PyProofs PySession PyFrozen.

(* ---- opening ---- *)
Lemma open_cases sha w (f : bytes) : 4096 <= zlen f ->
  py_new sha w (Some f) = (Some f, match valid_header (dec_header (ztake 4096 f)) with
    | Ok _ => inl (mkSt (mkPy (FpOpen w) (mkPkg (dec_header (ztake 4096 f)) f)) [])
    | _ => inr Crash end).
Proof.
  intros L. destruct (open_existing sha w f L) as (A & B & C). unfold py_new. destruct (pkg_open sha w f) as [f' r] eqn:E. cbn [fst snd] in *. subst f'.
  destruct (valid_header_total (dec_header (ztake 4096 f))) as [V|[e V]]; rewrite V.
  - destruct (B (mkPkg (dec_header (ztake 4096 f)) f)) as [_ B2]. rewrite (B2 (conj V eq_refl)). reflexivity.
  - destruct (C e) as [_ C2]. rewrite (C2 V). reflexivity.
Qed.
Lemma kind0_crash sha w f a : package_file f a -> a_kind a = 0 -> py_new sha w (Some f) = (Some f, inr Crash).
Proof.
  intros (h & es & H & _ & _ & _ & _ & _ & _ & (K & _) & _) Z0. pose proof (ho_file _ _ H) as Ff. pose proof (ho_wf _ _ H) as W. pose proof (zlen_enc_header _ W) as L.
  cbn [pk_header pk_file] in *. pose proof (zlen_nonneg (concat (map snd es))) as Ln.
  rewrite open_cases by (rewrite Ff, zlen_app; lia). f_equal.
  assert (D : dec_header (ztake 4096 f) = h) by (rewrite Ff, ztake_app_l, ztake_all by lia; now apply dec_enc_header).
  rewrite D. destruct (valid_header_total h) as [V|[e V]]; rewrite V; [|reflexivity].
  apply valid_header_iff in V as (_ & _ & _ & V). congruence.
Qed.

(* ---- reading a read-only package ---- *)
Definition as_mode (b : bool) (s : pyst) : pyst := mkSt (mkPy (FpOpen b) (py_pkg (st_obj s))) (st_handles s).
Lemma read_step sha s c : py_fp (st_obj s) = FpOpen true -> reading c = true ->
  py_step sha (as_mode false s) c = (as_mode false (fst (py_step sha s c)), snd (py_step sha s c)) /\
  py_fp (st_obj (fst (py_step sha s c))) = FpOpen true.
Proof.
  intros F R. destruct s as [[fp p] hs]. cbn in F. subst fp.
  destruct c; cbn [reading] in R; try discriminate; cbn [py_step as_mode st_obj py_pkg st_handles];
    try (split; reflexivity).
  - unfold py_get_part, as_mode, st_header. cbn [st_obj py_pkg st_handles]. destruct (get_part _ _); split; reflexivity.
  - unfold py_get_meta, as_mode, st_header. cbn [st_obj py_pkg st_handles]. destruct (get_meta _ _ _); split; reflexivity.
  - unfold py_digest, as_mode. cbn [st_obj py_pkg st_handles py_fp]. destruct (pkg_update_hash _ _ _) as [q [[d|]| | |]]; split; reflexivity.
  - unfold on_any, as_mode. cbn [st_obj py_pkg st_handles]. destruct (nth_error hs k); split; reflexivity.
  - unfold on_meta, as_mode. cbn [st_obj py_pkg st_handles]. destruct (nth_error hs k) as [[]|]; split; reflexivity.
  - unfold on_any, as_mode. cbn [st_obj py_pkg st_handles]. destruct (nth_error hs k) as [[]|]; split; reflexivity.
  - unfold on_meta, as_mode. cbn [st_obj py_pkg st_handles]. destruct (nth_error hs k) as [[]|]; split; reflexivity.
  - unfold on_meta, as_mode. cbn [st_obj py_pkg st_handles]. destruct (nth_error hs k) as [[]|]; split; reflexivity.
  - unfold on_part, as_mode. cbn [st_obj py_pkg st_handles]. destruct (nth_error hs k) as [[]|]; split; reflexivity.
  - unfold on_part, as_mode. cbn [st_obj py_pkg st_handles]. destruct (nth_error hs k) as [[]|]; split; reflexivity.
  - unfold on_part, as_mode. cbn [st_obj py_pkg st_handles]. destruct (nth_error hs k) as [[]|]; split; reflexivity.
Qed.
Lemma read_run sha cs : forall s, py_fp (st_obj s) = FpOpen true -> forallb reading cs = true ->
  py_run sha (as_mode false s) cs = (as_mode false (fst (py_run sha s cs)), snd (py_run sha s cs)).
Proof.
  induction cs as [|c cs IH]; intros s F R; cbn [py_run forallb] in *; [reflexivity|]. apply andb_prop in R as [R1 R2].
  destruct (read_step sha s c F R1) as [E F']. rewrite E. destruct (py_step sha s c) as [s1 r]. cbn [fst snd] in *.
  destruct r; try reflexivity; rewrite (IH s1 F' R2); destruct (py_run sha s1 cs); reflexivity.
Qed.
Lemma open_both_modes sha f a : package_file f a -> a_kind a <> 0 ->
  exists s, py_new sha true (Some f) = (Some f, inl s) /\ py_new sha false (Some f) = (Some f, inl (as_mode false s)) /\ py_inv s (forget a) /\ st_file s = f.
Proof.
  intros Pf K. destruct (open_package sha f a true Pf K) as (s & E1 & Ef & _ & _ & _ & Iv). exists s. split; [exact E1|]. split; [|split; [now apply Iv|exact Ef]].
  assert (L : 4096 <= zlen f).
  { destruct Pf as (h & es & H & _). pose proof (ho_file _ _ H) as F. pose proof (zlen_enc_header _ (ho_wf _ _ H)) as L. cbn [pk_header pk_file] in *.
    rewrite F, zlen_app, L. pose proof (zlen_nonneg (concat (map snd es))). lia. }
  rewrite open_cases in * by exact L. destruct (valid_header _); try discriminate. injection E1 as <-. reflexivity.
Qed.
Theorem readonly_reads sha f a cs : good_hash sha -> package_file f a -> a_kind a <> 0 -> py_allowed (forget a) cs -> forallb reading cs = true ->
  exists s s' rs a', py_new sha false (Some f) = (Some f, inl s) /\ py_run sha s cs = (s', rs) /\ ~ In Crash rs /\ ~ In Hang rs /\
    py_specs (forget a) cs rs a' /\ st_file s' = f.
Proof.
  intros G Pf K Ok R. destruct (open_both_modes sha f a Pf K) as (s & _ & E & Iv & Ef).
  destruct (run_ok sha G cs s (forget a) Iv Ok) as (s1 & rs & a1 & E1 & C1 & C2 & S1 & I1).
  pose proof (read_run sha cs s (iv_fp _ _ Iv) R) as Er. rewrite E1 in Er. cbn [fst snd] in Er.
  exists (as_mode false s), (as_mode false s1), rs, a1. split; [exact E|]. split; [exact Er|]. split; [exact C1|]. split; [exact C2|]. split; [exact S1|].
  assert (Fz : frozen (as_mode false s)) by (left; reflexivity).
  pose proof (run_still sha cs (as_mode false s) Fz) as [_ St]. rewrite Er in St. cbn [fst] in St. rewrite St. exact Ef.
Qed.
Lemma readonly_frozen sha f s f' : py_new sha false f = (f', inl s) -> exists g, f = Some g /\ f' = Some g /\ st_file s = g /\ py_fp (st_obj s) = FpOpen false.
Proof.
  intros E. unfold py_new in E. destruct f as [g|]; [|discriminate]. destruct (Z.ltb_spec (zlen g) 4096) as [L|L].
  - exfalso. unfold pkg_open, fread_at, HDR_SIZE in E. rewrite slice_0, zlen_ztake in E.
    pose proof (zlen_nonneg g). replace (Z.max 0 (Z.min 4096 (zlen g)) =? 4096) with false in E by lia.
    destruct (pkg_update_hash _ _ _) as [q [x| | |]]; cbn [negb] in E; discriminate.
  - pose proof (open_cases sha false g ltac:(lia)) as O. unfold py_new in O. rewrite O in E. exists g.
    destruct (valid_header _); try discriminate. injection E as <- <-. auto.
Qed.
(* setters of a read-only package raise, but the value in memory has changed *)
Lemma readonly_set sha s x n : py_fp (st_obj s) = FpOpen false -> 0 <= n < 2^64 ->
  snd (py_run sha s [KSet x (AInt n); KGet x]) =
    [Exc XIO; Val (VInt (match x with HashKind | SignatureKind => n mod 2^8 | _ => n mod 2^32 end))].
Proof.
  intros F Hn. cbn [py_run py_step]. unfold py_set_attr, as_uint, store. rewrite F.
  destruct (Z.ltb_spec n 0); [lia|]. destruct (Z.geb_spec n 18446744073709551616); [lia|]. cbn [orb snd].
  assert (E8 : u8 (u32 n) = n mod 2^8).
  { unfold u8, u32. change (2^8) with 256. change (2^32) with (256 * 16777216).
    rewrite <- Znumtheory.Zmod_div_mod; try lia. exists 16777216. lia. }
  destruct x; unfold st_header; cbn [with_pkg st_obj py_pkg pk_header set_attr get_attr with_hash_kind with_key_id with_keystore_id h_hash_kind h_signature_kind h_key_id h_keystore_id];
    rewrite ?E8; reflexivity.
Qed.

(* ---- after close() ---- *)
Definition closed (f : bytes) (hs : list handle) : pyst := mkSt (mkPy FpNull (mkPkg zero_header f)) hs.
Lemma close_step sha s : py_fp (st_obj s) <> FpDangling -> py_step sha s KClose = (closed (st_file s) (st_handles s), Val VNone).
Proof. intros N. cbn [py_step]. unfold py_close. destruct (py_fp (st_obj s)); [reflexivity|reflexivity|contradiction]. Qed.
Lemma closed_frozen f hs : frozen (closed f hs).
Proof. right. split; [reflexivity|]. split; reflexivity. Qed.
Lemma closed_file sha s cs : py_fp (st_obj s) <> FpDangling -> st_file (fst (py_run sha s (KClose :: cs))) = st_file s.
Proof.
  intros N. cbn [py_run]. rewrite close_step by exact N.
  pose proof (run_still sha cs _ (closed_frozen (st_file s) (st_handles s))) as [_ S].
  destruct (py_run sha (closed (st_file s) (st_handles s)) cs) as [s2 xs]. exact S.
Qed.
Lemma closed_harmless sha f hs : 
  (forall x, py_step sha (closed f hs) (KGet x) = (closed f hs, Val (VInt 0))) /\
  py_step sha (closed f hs) KClose = (closed f hs, Val VNone) /\
  py_step sha (closed f hs) KSignature = (closed f hs, Val (VBytes [])) /\
  py_step sha (closed f hs) KSize = (closed f hs, Val (VInt 4096)) /\
  snd (py_step sha (closed f hs) KParts) = Val (VObjs []) /\ snd (py_step sha (closed f hs) KMetas) = Val (VObjs []) /\
  py_step sha (closed f hs) KDigest = (closed f hs, Val VNone) /\
  (forall id, id mod 2^32 <> 0 -> py_step sha (closed f hs) (KGetPart id) = (closed f hs, Exc XKey)).
Proof.
  split; [intros []; reflexivity|]. split; [reflexivity|]. split; [reflexivity|]. split; [reflexivity|]. split; [reflexivity|]. split; [reflexivity|].
  split.
  - cbn [py_step]. unfold py_digest. rewrite update_hash_kind0 by reflexivity. reflexivity.
  - intros id N. cbn [py_step]. unfold py_get_part. rewrite blank_get_part by reflexivity. change (u32 id) with (id mod 2^32).
    destruct (Z.eqb_spec (id mod 2^32) 0); [contradiction|]. reflexivity.
Qed.
Lemma closed_crash sha f hs :
  (forall x n, 0 <= n < 2^64 -> snd (py_step sha (closed f hs) (KSet x (AInt n))) = Crash) /\
  (forall b, snd (py_step sha (closed f hs) (KSetSignature (ABytes b))) = Crash) /\
  (forall name d, bpak_id name <> 0 -> snd (py_step sha (closed f hs) (KAddFile name (Some d))) = Crash) /\
  (forall id ref b, id mod 2^32 <> 0 -> zlen b <= 1920 -> snd (py_step sha (closed f hs) (KAddMeta id ref (Some (ABytes b)) None)) = Crash).
Proof.
  split; [|split; [|split]].
  - intros x n Hn. cbn [py_step]. unfold py_set_attr, as_uint. destruct (Z.ltb_spec n 0); [lia|].
    destruct (Z.geb_spec n 18446744073709551616); [lia|]. reflexivity.
  - intros b. cbn [py_step]. unfold py_set_signature. destruct (zlen b >? 512); reflexivity.
  - intros name d N. cbn [py_step]. unfold py_add_file. cbn [closed st_obj py_fp py_pkg pk_header].
    destruct (blank_add_part zero_header (bpak_id name) eq_refl N) as (h1 & E). rewrite E. reflexivity.
  - intros id ref b N L. cbn [py_step]. unfold py_add_meta. cbn [orb meta_arg]. pose proof (zlen_nonneg b).
    change (-1 <? -9223372036854775808) with false. change (-1 >=? 9223372036854775808) with false. change (-1 <? 0) with true. cbn [orb].
    assert (U : u16 (zlen b) = zlen b) by (unfold u16; rewrite Z.mod_small; lia). rewrite U.
    change (u32 id) with (id mod 2^32).
    assert (M0 : metas_are (h_meta zero_header) (h_metadata zero_header) []) by exact metas_are_init.
    pose proof (add_meta_spec zero_header [] (id mod 2^32) (u32 ref) (zlen b) N M0) as A. cbn [find_index length Nat.eqb meta_end] in A.
    destruct A as (m & _ & _ & A). change (st_header (closed f hs)) with zero_header. rewrite A. unfold METADATA_BYTES.
    destruct (Z.gtb_spec (0 + zlen b) 1920); [lia|].
    match goal with |- context [meta_write ?a ?b ?c ?d] => destruct (meta_write a b c d) end; reflexivity.
Qed.

(* ---- integers ---- *)
Lemma set_get sha s a x n : py_inv s a -> 0 <= n < 2^64 ->
  exists s', py_run sha s [KSet x (AInt n); KGet x] = (s', [Val VNone; Val (VInt (a_get (a_set a x n) x))]) /\ py_inv s' (a_set a x n).
Proof.
  intros Iv Hn. cbn [py_run py_step]. unfold py_set_attr, as_uint.
  destruct (Z.ltb_spec n 0); [lia|]. destruct (Z.geb_spec n 18446744073709551616); [lia|]. cbn [orb].
  pose proof (hinv_attr _ _ x n (iv_h _ _ Iv)) as H'. change (n mod 2^32) with (u32 n) in H'.
  destruct (store_ok0 s a _ (a_set a x n) VNone Iv H' ltac:(destruct x; reflexivity) ltac:(destruct x; reflexivity)) as (s' & Es & I' & Eh). rewrite Es.
  exists s'. split; [|exact I']. now rewrite (hi_attr _ _ (iv_h _ _ I') x).
Qed.

(* ---- oversized metadata ---- *)
Lemma oversize_step sha s a id ref (b : bytes) : py_inv s a -> id mod 2^32 <> 0 ->
  meta_split (id mod 2^32) (ref mod 2^32) (a_metas a) = None -> (length (a_metas a) < 32)%nat ->
  1920 < meta_end (a_metas a) + zlen b -> zlen b < 2^63 ->
  py_step sha s (KAddMeta id ref (Some (ABytes b)) None) =
    if meta_end (a_metas a) + zlen b mod 65536 <=? 1920 then (s, Crash)
    else (with_pkg s (mkPkg (fst (add_meta (st_header s) (id mod 2^32) (ref mod 2^32) (zlen b mod 65536))) (st_file s)), Exc XError).
Proof.
  intros Iv N Ef Hl Hb Hb2. pose proof (iv_h _ _ Iv) as Hh. pose proof (hi_metas _ _ Hh) as M. pose proof (zlen_nonneg b).
  cbn [py_step]. unfold py_add_meta.
  change (-1 <? -9223372036854775808) with false. change (-1 >=? 9223372036854775808) with false. change (-1 <? 0) with true. cbn [orb meta_arg].
  change (u32 id) with (id mod 2^32). change (u32 ref) with (ref mod 2^32). change (u16 (zlen b)) with (zlen b mod 65536).
  pose proof (add_meta_spec (st_header s) (a_metas a) (id mod 2^32) (ref mod 2^32) (zlen b mod 65536) N M) as A.
  pose proof (find_of_split (id mod 2^32) (ref mod 2^32) (a_metas a)) as Fs. rewrite Ef in Fs. rewrite Fs in A.
  destruct (Nat.eqb_spec (length (a_metas a)) 32); [lia|]. destruct A as (m & Hm & Hm0 & A). rewrite A. unfold METADATA_BYTES.
  destruct (Z.gtb_spec (meta_end (a_metas a) + zlen b mod 65536) 1920) as [C|C];
    (destruct (Z.leb_spec (meta_end (a_metas a) + zlen b mod 65536) 1920); [|]); try lia; [reflexivity|].
  unfold meta_write. cbn [h_meta with_meta].
  rewrite nth_error_list_upd_same by (destruct (wf_metas _ (hi_wf _ _ Hh)) as [L _]; rewrite L; lia).
  cbn [fill m_offset]. rewrite Z.add_0_r, ztake_all by lia. unfold METADATA_BYTES.
  destruct (Z.gtb_spec (meta_end (a_metas a) + zlen b) 1920); [reflexivity|lia].
Qed.
Lemma layout_nonzero live : forall off slots, layout off slots live -> length slots = length live -> Forall (fun e => e_id e <> 0) live ->
  Forall (fun m => m_id m <> 0) slots.
Proof.
  induction live as [|e l IH]; intros off [|x s]; cbn [layout length]; intros L E NZ; try discriminate; try contradiction; auto.
  destruct L as (L1 & _ & _ & _ & L5). constructor; [rewrite L1; exact (Forall_inv NZ)|].
  apply (IH _ s L5); [lia|exact (Forall_inv_tail NZ)].
Qed.
Lemma until_empty_app {A} (id : A -> Z) l r : Forall (fun x => id x <> 0) l -> until_empty id (l ++ r) = l ++ until_empty id r.
Proof.
  induction 1 as [|x l H _ IH]; cbn [until_empty app]; [reflexivity|]. destruct (Z.eqb_spec (id x) 0); [contradiction|]. now rewrite IH.
Qed.
Lemma poisoned h a id ref n : hinv h a -> id <> 0 -> meta_split id ref (a_metas a) = None -> (length (a_metas a) < 32)%nat ->
  1920 < meta_end (a_metas a) + n -> forall h', h_meta h' = h_meta (fst (add_meta h id ref n)) -> exists e, valid_header h' = Err e.
Proof.
  intros Hh N Ef Hl Hb h' Eh. destruct (valid_header_total h') as [V|V]; [|exact V]. exfalso.
  apply valid_header_iff in V as (_ & _ & V & _). unfold metas_in_bounds in V. rewrite Eh in V.
  pose proof (hi_metas _ _ Hh) as M.
  pose proof (add_meta_spec h (a_metas a) id ref n N M) as A.
  pose proof (find_of_split id ref (a_metas a)) as Fs. rewrite Ef in Fs. rewrite Fs in A.
  destruct (Nat.eqb_spec (length (a_metas a)) 32); [lia|]. destruct A as (m & Hm & Hm0 & A). rewrite A in V. cbn [fst h_meta with_meta] in V.
  apply metas_are_iff in M as (_ & _ & _ & NZ & Lay & _). rewrite <- (app_nil_r (a_metas a)) in Lay. apply layout_app in Lay as (s1 & s2 & Es & Hs1 & L1 & L2).
  rewrite Es in Hm, V. rewrite <- Hs1 in V, Hm.
  destruct s2 as [|m2 s2]; [rewrite app_nil_r in Hm; assert (C : nth_error s1 (length s1) = None) by (apply nth_error_None; lia); congruence|].
  rewrite list_upd_middle, until_empty_app in V by (eapply layout_nonzero; eauto).
  apply Forall_app in V as [_ V]. cbn [until_empty fill m_id] in V. destruct (Z.eqb_spec id 0); [contradiction|].
  apply Forall_inv in V. cbn [m_offset m_size fill] in V. lia.
Qed.
Theorem oversize_lost sha f a id ref (b : bytes) n : package_file f a -> a_kind a <> 0 -> id mod 2^32 <> 0 ->
  meta_split (id mod 2^32) (ref mod 2^32) (a_metas a) = None -> (length (a_metas a) < 32)%nat ->
  1920 < meta_end (a_metas a) + zlen b mod 65536 -> zlen b < 2^63 -> 0 <= n < 2^64 ->
  exists f', py_sessions sha f [[KAddMeta id ref (Some (ABytes b)) None; KSet KeyId (AInt n)]; []] =
    (f', [[Exc XError; Val VNone; Val VNone]; [Crash]]).
Proof.
  intros Pf K N Ef Hl Hb Hb2 Hn. destruct (open_package sha f a true Pf K) as (s & En & Fe & Fp & _ & Hh & Iv). specialize (Iv eq_refl).
  pose proof (zlen_nonneg b) as Lb. pose proof (Z.mod_le (zlen b) 65536 Lb ltac:(lia)) as Lb2.
  pose proof (oversize_step sha s (forget a) id ref b Iv N Ef Hl ltac:(cbn [forget a_set_objs a_metas]; lia) Hb2) as E.
  destruct (Z.leb_spec (meta_end (a_metas (forget a)) + zlen b mod 65536) 1920) as [C|C]; [cbn [forget a_set_objs a_metas] in C; lia|].
  cbn [py_sessions]. rewrite En. cbn [app py_run]. rewrite E. set (h1 := fst (add_meta (st_header s) (id mod 2^32) (ref mod 2^32) (zlen b mod 65536))).
  assert (Eset : py_step sha (with_pkg s (mkPkg h1 (st_file s))) (KSet KeyId (AInt n)) =
    (with_pkg s (pkg_write_header (mkPkg (set_attr h1 KeyId (u32 n)) (st_file s))), Val VNone)).
  { cbn [py_step]. unfold py_set_attr, as_uint, store. cbn [with_pkg st_obj py_fp]. rewrite Fp.
    destruct (Z.ltb_spec n 0); [lia|]. destruct (Z.geb_spec n 18446744073709551616); [lia|]. reflexivity. }
  rewrite Eset. rewrite close_step by (cbn [with_pkg st_obj py_fp]; rewrite Fp; discriminate).
  cbn [finished forallb andb]. set (h2 := set_attr h1 KeyId (u32 n)).
  set (f2 := fwrite_at (st_file s) 0 (enc_header h2)).
  change (st_file (closed _ _)) with f2.
  assert (W : wf_header h2).
  { pose proof (hi_wf _ _ Hh) as W0. pose proof (hi_metas _ _ Hh) as M.
    pose proof (add_meta_spec (st_header s) (a_metas a) (id mod 2^32) (ref mod 2^32) (zlen b mod 65536) N M) as A.
    pose proof (find_of_split (id mod 2^32) (ref mod 2^32) (a_metas a)) as Fs. rewrite Ef in Fs. rewrite Fs in A.
    destruct (Nat.eqb_spec (length (a_metas a)) 32); [lia|]. destruct A as (m & Hm & Hm0 & A).
    assert (E1 : h1 = with_meta (st_header s) (list_upd (length (a_metas a)) (fill m (id mod 2^32) (ref mod 2^32) (zlen b mod 65536) (meta_end (a_metas a))) (h_meta (st_header s)))) by (unfold h1; rewrite A; reflexivity).
    assert (Me : 0 <= meta_end (a_metas a) <= 1920) by (split; [apply meta_end_nonneg|apply metas_are_iff in M as (_ & _ & _ & _ & _ & Dk); exact (data_ok_end 0 _ _ ltac:(lia) ltac:(reflexivity) ltac:(lia) Dk)]).
    assert (Wm : wf_meta m) by (destruct (wf_metas _ W0) as [_ Fm]; eapply Forall_forall in Fm; [exact Fm|eapply nth_error_In; eauto]).
    unfold h2. rewrite E1. destruct W0. constructor; cbn [set_attr with_key_id with_meta h_magic h_pad0 h_meta h_parts h_metadata h_hash_kind h_signature_kind h_alignment h_payload_hash h_key_id h_keystore_id h_pad1 h_signature h_signature_sz]; auto.
    - split; [rewrite length_list_upd; tauto|]. apply Forall_list_upd; [tauto|].
      unfold wf_meta, fill in *. cbn [m_id m_size m_offset m_ref m_pad]. pose proof (Z.mod_pos_bound (zlen b) 65536 ltac:(lia)).
      pose proof (Z.mod_pos_bound id (2^32) ltac:(lia)). pose proof (Z.mod_pos_bound ref (2^32) ltac:(lia)). repeat split; try tauto; lia.
    - unfold u32. apply Z.mod_pos_bound. lia. }
  pose proof (zlen_enc_header _ W) as L.
  assert (Ff : f2 = enc_header h2 ++ zdrop 4096 (st_file s)) by (unfold f2; pose proof (zlen_nonneg (st_file s)); rewrite fwrite_at_in by lia; unfold splice; now rewrite ztake_0, L).
  assert (L2 : 4096 <= zlen f2) by (rewrite Ff, zlen_app; pose proof (zlen_nonneg (zdrop 4096 (st_file s))); lia).
  rewrite (open_cases sha true f2 L2).
  assert (D : dec_header (ztake 4096 f2) = h2) by (rewrite Ff, ztake_app_l, ztake_all by lia; now apply dec_enc_header).
  rewrite D. destruct (poisoned (st_header s) (forget a) (id mod 2^32) (ref mod 2^32) (zlen b mod 65536) Hh N Ef Hl ltac:(lia) h2 eq_refl) as [e V].
  rewrite V. exists f2. reflexivity.
Qed.

(* ---- the stream only ever becomes NULL ---- *)
Lemma fp_store s h v : py_fp (st_obj (fst (store s h v))) = py_fp (st_obj s).
Proof. unfold store. destruct (py_fp (st_obj s)) as [|[]|] eqn:E; cbn; auto. Qed.
Lemma fp_call s x : py_fp (st_obj (fst (call_c s x))) = py_fp (st_obj s).
Proof. unfold call_c. destruct (py_fp (st_obj s)) eqn:E, (snd x); cbn; auto. Qed.
Lemma step_fp sha s c : c <> KClose -> py_fp (st_obj (fst (py_step sha s c))) = py_fp (st_obj s).
Proof.
  intros N. destruct c; cbn [py_step]; try contradiction; try reflexivity.
  - unfold py_add_file. destruct data as [d|]; [|reflexivity]. cbv zeta.
    match goal with |- context [call_c s ?x] => pose proof (fp_call s x) as C; destruct (call_c s x) as [s1 [r|u]] end; [exact C|].
    destruct (get_part _ _); exact C.
  - unfold py_add_meta. cbv zeta. destruct (_ || _); [reflexivity|].
    match goal with |- context [match ?x with inl _ => _ | inr _ => _ end] => destruct x as [e|[d n]] end; [reflexivity|].
    destruct (add_meta _ _ _ _) as [h1 [i| | |]]; try reflexivity. destruct (meta_write _ _ _ _) as [h2| | |]; try reflexivity.
    pose proof (fp_store s h2 VNone) as C. destruct (store s h2 VNone) as [s1 []]; exact C.
  - unfold py_get_part. destruct (get_part _ _); reflexivity.
  - unfold py_get_meta. destruct (get_meta _ _ _); reflexivity.
  - unfold py_digest. destruct (pkg_update_hash _ _ _) as [q [[d|]| | |]]; try reflexivity. destruct (py_fp (st_obj s)) eqn:E; cbn; auto.
  - unfold py_set_attr. destruct v; try reflexivity; destruct (as_uint _); try reflexivity; (etransitivity; [apply fp_store|reflexivity]).
  - unfold py_set_signature. destruct v as [n|b|cs| | |]; try reflexivity; (destruct (_ >? 512); [reflexivity|]);
      match goal with |- context [store s ?h ?v] => pose proof (fp_store s h v) as C; destruct (store s h v) as [s1 [x|[]| |]]; exact C end.
  - unfold on_any. destruct (nth_error _ _); reflexivity.
  - unfold on_any. destruct (nth_error _ _) as [x|]; [|reflexivity]. unfold py_set_id.
    destruct v; try reflexivity; destruct (as_uint _); try reflexivity; (destruct x; [destruct (get_meta _ _ _)|destruct (get_part _ _)]);
      try reflexivity; (destruct (nth_error _ _); [|reflexivity]); (etransitivity; [apply fp_store|reflexivity]).
  - unfold on_meta. destruct (nth_error _ _) as [[]|]; reflexivity.
  - unfold on_meta. destruct (nth_error _ _) as [[id ref|]|]; try reflexivity. unfold py_set_ref.
    destruct v; try reflexivity; (destruct (as_uint _) || idtac); try reflexivity; destruct (get_meta _ _ _); try reflexivity; (destruct (nth_error _ _); [|reflexivity]); (etransitivity; [apply fp_store|reflexivity]).
  - unfold on_any. destruct (nth_error _ _); reflexivity.
  - unfold on_meta. destruct (nth_error _ _) as [[]|]; reflexivity.
  - unfold on_meta. destruct (nth_error _ _) as [[id ref|]|]; try reflexivity. unfold py_set_raw.
    destruct (get_meta _ _ _); try reflexivity. destruct v; try reflexivity; destruct (meta_arg _); try reflexivity; (destruct (nth_error _ _); [|reflexivity]);
      (destruct (_ <=? _); [|reflexivity]); destruct (meta_write _ _ _ _); try reflexivity; (etransitivity; [apply fp_store|reflexivity]).
  - unfold on_meta. destruct (nth_error _ _) as [[]|]; reflexivity.
  - unfold on_part. destruct (nth_error _ _) as [[]|]; reflexivity.
  - unfold on_part. destruct (nth_error _ _) as [[]|]; reflexivity.
  - unfold on_part. destruct (nth_error _ _) as [[]|]; reflexivity.
  - unfold on_any. destruct (nth_error _ _) as [x|]; [|reflexivity]. unfold py_delete. destruct x.
    + destruct (get_meta _ _ _); try reflexivity. destruct (del_meta _ _); try reflexivity. (etransitivity; [apply fp_store|reflexivity]).
    + match goal with |- context [call_c s ?x] => pose proof (fp_call s x) as C; destruct (call_c s x) as [s1 [r|u]] end; exact C.
Qed.
Definition not_dangling (s : pyst) : Prop := py_fp (st_obj s) <> FpDangling.
Lemma step_not_dangling sha s c : not_dangling s -> not_dangling (fst (py_step sha s c)).
Proof.
  intros N. unfold not_dangling in *. assert (D : c = KClose \/ c <> KClose) by (destruct c; (left; reflexivity) || (right; discriminate)).
  destruct D as [->|D]; [rewrite close_step by exact N; discriminate|]. rewrite step_fp; auto.
Qed.
Lemma run_not_dangling sha cs : forall s, not_dangling s -> not_dangling (fst (py_run sha s cs)).
Proof.
  induction cs as [|c cs IH]; intros s N; cbn [py_run]; [exact N|]. pose proof (step_not_dangling sha s c N) as N1.
  destruct (py_step sha s c) as [s1 r]. cbn [fst] in N1. specialize (IH s1 N1). destruct r; auto; destruct (py_run sha s1 cs); exact IH.
Qed.
Lemma new_not_dangling sha w f f' s : py_new sha w f = (f', inl s) -> not_dangling s.
Proof.
  unfold py_new. destruct f; [|discriminate]. destruct (pkg_open _ _ _) as [g [p| | |]]; try discriminate. intros E. injection E as _ <-. discriminate.
Qed.
Theorem close_final sha w f f' s cs ds : py_new sha w f = (f', inl s) ->
  st_file (fst (py_run sha s (cs ++ KClose :: ds))) = st_file (fst (py_run sha s cs)).
Proof.
  intros N. apply new_not_dangling in N. revert s N. induction cs as [|c cs IH]; intros s N; [exact (closed_file sha s ds N)|].
  cbn [app py_run]. pose proof (step_not_dangling sha s c N) as N1. destruct (py_step sha s c) as [s1 r]. cbn [fst] in N1.
  destruct r; try reflexivity; specialize (IH s1 N1); destruct (py_run sha s1 cs), (py_run sha s1 (cs ++ KClose :: ds)); exact IH.
Qed.
Theorem close_then sha w f f' s cs s1 rs ds : py_new sha w f = (f', inl s) -> py_run sha s cs = (s1, rs) -> finished rs = true ->
  py_run sha s (cs ++ KClose :: ds) =
    (fst (py_run sha (closed (st_file s1) (st_handles s1)) ds), rs ++ Val VNone :: snd (py_run sha (closed (st_file s1) (st_handles s1)) ds)).
Proof.
  intros N E Fi. apply finished_iff in Fi as [C1 C2]. rewrite (run_app sha cs (KClose :: ds) s s1 rs E C1 C2).
  pose proof (run_not_dangling sha cs s (new_not_dangling _ _ _ _ _ N)) as D. rewrite E in D. cbn [fst] in D.
  cbn [py_run]. rewrite close_step by exact D. destruct (py_run sha (closed _ _) ds); reflexivity.
Qed.
(* add_meta on a read-only package with a str: released twice *)
Lemma readonly_add_meta sha s id ref data size s' v : py_fp (st_obj s) = FpOpen true ->
  py_step sha s (KAddMeta id ref data size) = (s', Val v) ->
  snd (py_step sha (as_mode false s) (KAddMeta id ref data size)) = if was_str data then Crash else Exc XIO.
Proof.
  intros F. cbn [py_step]. unfold py_add_meta. change (st_header (as_mode false s)) with (st_header s). cbv zeta. destruct (_ || _); [discriminate|].
  match goal with |- context [match ?x with inl _ => _ | inr _ => _ end] => destruct x as [e|[d n]] end; [discriminate|].
  destruct (add_meta _ _ _ _) as [h1 [i| | |]]; try discriminate. destruct (meta_write _ _ _ _) as [h2| | |]; try discriminate.
  intros _. reflexivity.
Qed.
(* ---- a package made from nothing ---- *)
Lemma new_reopen sha : good_hash sha -> exists s, py_new sha true (Some []) = (Some (st_file s), inl s) /\
  py_new sha true (Some (st_file s)) = (Some (st_file s), inl s) /\ py_inv s new_apkg.
Proof.
  intros G. destruct (new_package sha G) as (s & E & Iv). exists s. split; [exact E|]. split; [|exact Iv].
  destruct (open_short sha [] G ltac:(reflexivity)) as [_ E2]. cbn [app] in E2. unfold py_new in E. rewrite E2 in E.
  apply (f_equal snd) in E. cbv beta iota delta [snd] in E. injection E as E. subst s.
  change (st_file _) with (enc_header (fresh_header sha)).
  pose proof (fresh_wf sha G) as W. pose proof (zlen_enc_header _ W) as L. rewrite open_cases by lia.
  rewrite ztake_all by lia. rewrite dec_enc_header by exact W. reflexivity.
Qed.
Lemma sessions_same sha (f g x y : bytes) s cs css : py_new sha true (Some f) = (Some x, inl s) -> py_new sha true (Some g) = (Some y, inl s) ->
  py_sessions sha f (cs :: css) = py_sessions sha g (cs :: css).
Proof. intros E1 E2. cbn [py_sessions]. rewrite E1, E2. reflexivity. Qed.
Theorem sessions_new sha css : good_hash sha -> css <> [] -> sessions_allowed new_apkg css ->
  exists f' rss a', py_sessions sha [] css = (f', rss) /\ session_specs new_apkg css rss a' /\ package_file f' a'.
Proof.
  intros G N Ok. destruct (new_reopen sha G) as (s & E1 & E2 & Iv).
  destruct (sessions_ok sha G css (st_file s) new_apkg (file_of_inv _ _ Iv) Ok) as (f' & rss & a' & R).
  exists f', rss, a'. destruct css as [|cs css]; [contradiction|].
  rewrite (sessions_same sha [] (st_file s) _ _ s cs css E1 E2). exact R.
Qed.
Lemma allowed_app1 cs ds : forall a, py_allowed a (cs ++ ds) -> py_allowed a cs.
Proof. induction cs as [|c cs IH]; cbn [app py_allowed]; intros a H; [exact I|]. destruct H as [H1 H2]. split; [exact H1|]. intros r a1 S. apply IH. eauto. Qed.
Lemma allowed_app2 cs c : forall a rs a1, py_allowed a (cs ++ [c]) -> py_specs a cs rs a1 -> py_ok a1 c.
Proof.
  induction cs as [|d cs IH]; cbn [app py_allowed]; intros a rs a1 H S; inversion S; subst; [tauto|]. destruct H as [_ H2]. eapply IH; eauto.
Qed.
