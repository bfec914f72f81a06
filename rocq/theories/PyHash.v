(* PyHash.v -- when is the payload hash in the file current *)
From Verif Require Import BaseLemmas HeaderModel HeaderSpec HeaderHistory CodecProofs PartProofs MetaProofs CrcModel CrcProofs HashModel MerkleModel
  VerifyModel VerifySpec VerifyProofs VerifySign VerifyWitness PkgModel PkgSpec PkgProofs PkgAdd PkgDelete PkgHistory PkgApi
  PyModel PySpec PyInv PyProofs PySession PyFrozen.

Definition touch (s s' : pyst) : Prop :=
  h_payload_hash (st_header s') = h_payload_hash (st_header s) /\
  (st_file s' = st_file s \/ st_file s' = fwrite_at (st_file s) 0 (enc_header (st_header s'))).
Lemma touch_refl s : touch s s.
Proof. split; auto. Qed.
Lemma touch_store s h v : py_fp (st_obj s) = FpOpen true -> h_payload_hash h = h_payload_hash (st_header s) -> touch s (fst (store s h v)).
Proof. intros F E. unfold store. rewrite F. cbn [fst]. split; [exact E|right; reflexivity]. Qed.
Lemma touch_set s k x h v : py_fp (st_obj s) = FpOpen true -> h_payload_hash h = h_payload_hash (st_header s) ->
  touch s (fst (store (set_handle s k x) h v)).
Proof. intros F E. exact (touch_store (set_handle s k x) h v F E). Qed.
Lemma add_meta_hash h id ref n : h_payload_hash (fst (add_meta h id ref n)) = h_payload_hash h.
Proof. unfold add_meta. destruct (add_meta_loop _ _ _ _ _). auto. Qed.
Lemma del_meta_hash h i h' : del_meta h i = Ok h' -> h_payload_hash h' = h_payload_hash h.
Proof.
  unfold del_meta. destruct (nth_error (h_meta h) i); [|discriminate].
  destruct (del_meta_loop _ _ _) as [[l md]| | |]; try discriminate. cbn [bind]. intros E. injection E as <-. auto.
Qed.
Lemma meta_write_hash h i k d h' : meta_write h i k d = Ok h' -> h_payload_hash h' = h_payload_hash h.
Proof. unfold meta_write. destruct (nth_error _ _); [|discriminate]. destruct (_ >? _); [discriminate|]. intros E. injection E as <-. auto. Qed.
Lemma set_attr_hash h x n : h_payload_hash (set_attr h x n) = h_payload_hash h.
Proof. destruct x; reflexivity. Qed.
Definition plain_call (s : pyst) (c : pycall) : bool :=
  match c with
  | KClose | KAddFile _ _ | KDigest => false
  | KDelete k => match nth_error (st_handles s) k with Some (HPart _) => false | _ => true end
  | _ => true
  end.
Ltac tbranch F := repeat match goal with
  | |- touch ?s (fst (?s, _)) => exact (touch_refl s)
  | |- touch ?s (fst (with_handles ?s _, _)) => exact (touch_refl s)
  | |- touch ?s (fst (store ?s _ _)) => apply touch_store; [exact F|]
  | |- touch _ (fst (match ?x with _ => _ end)) => destruct x eqn:?
  end.
Lemma step_touch sha s c : py_fp (st_obj s) = FpOpen true -> plain_call s c = true -> touch s (fst (py_step sha s c)).
Proof.
  intros F P. destruct c; cbn [py_step plain_call] in *; try discriminate; try exact (touch_refl s).
  - unfold py_add_meta. cbv zeta. destruct (_ || _); [apply touch_refl|].
    match goal with |- context [match ?x with inl _ => _ | inr _ => _ end] => destruct x as [e|[d n]] end; [apply touch_refl|].
    pose proof (add_meta_hash (st_header s) (u32 id) (u32 ref) (u16 n)) as A.
    destruct (add_meta _ _ _ _) as [h1 [i|e| |]] eqn:Ea; cbn [fst] in *; try (apply touch_refl).
    + destruct (meta_write _ _ _ _) as [h2| | |] eqn:Ew; try (apply touch_refl). apply meta_write_hash in Ew.
      pose proof (touch_store s h2 VNone F ltac:(congruence)) as S. destruct (store s h2 VNone) as [s1 []]; cbn [fst] in *; exact S.
    + split; [exact A|left; reflexivity].
  - unfold py_get_part. tbranch F. exact (touch_refl s).
  - unfold py_get_meta. tbranch F. exact (touch_refl s).
  - unfold py_set_attr. tbranch F; apply set_attr_hash.
  - unfold py_set_signature.
    assert (X : forall sg ig, touch s (fst (if zlen sg >? 512 then (s, Crash) else
        match store s (with_signature (st_header s) (splice 0 sg (zeros 512)) (u16 (zlen sg))) VNone with
        | (s', Exc XIO) => (s', if ig : bool then Val VNone else Exc XError) | x => x end))).
    { intros sg ig. destruct (_ >? 512); [apply touch_refl|].
      pose proof (touch_store s (with_signature (st_header s) (splice 0 sg (zeros 512)) (u16 (zlen sg))) VNone F eq_refl) as S.
      destruct (store _ _ _) as [s1 [v0|[]| |]]; exact S. }
    destruct v; try (apply touch_refl); first [exact (X _ false) | exact (X [] true)].
  - unfold on_any. tbranch F.
  - unfold on_any, py_set_id. tbranch F; (apply (touch_set s); [exact F|reflexivity]).
  - unfold on_meta. tbranch F.
  - unfold on_meta, py_set_ref. tbranch F; (apply (touch_set s); [exact F|reflexivity]).
  - unfold on_any. tbranch F.
  - unfold on_meta. tbranch F.
  - unfold on_meta, py_set_raw. tbranch F; eapply meta_write_hash; eassumption.
  - unfold on_meta. tbranch F.
  - unfold on_part. tbranch F.
  - unfold on_part. tbranch F.
  - unfold on_part. tbranch F.
  - unfold on_any, py_delete. destruct (nth_error _ _) as [[id ref|id]|]; try discriminate; [|apply touch_refl].
    tbranch F; eapply del_meta_hash; eassumption.
Qed.
(* which files the payload hash covers, and with which algorithm *)
Definition same_payload (a a' : apkg) : Prop := files_covered (a_files a') = files_covered (a_files a).
Lemma covered_rename x g y n : files_covered (x ++ mkFile n (f_flags g) (f_data g) :: y) = files_covered (x ++ g :: y).
Proof.
  unfold files_covered. rewrite !filter_app, !map_app, !concat_app. f_equal. cbn [filter f_flags].
  destruct (Z.testbit (f_flags g) 0); reflexivity.
Qed.
Ltac fields := repeat match goal with
  | H : (_, _) = (_, _) |- _ => injection H; clear H; intros; subst
  end.
Lemma spec_payload a c r a' s : st_handles s = a_objs a -> plain_call s c = true -> py_spec a c r a' ->
  same_payload a a' /\ (sets_hash_kind c = false -> a_kind a' = a_kind a).
Proof.
  intros Eo P S. assert (Id : forall x, (r, a') = (x, a) -> same_payload a a' /\ (sets_hash_kind c = false -> a_kind a' = a_kind a)).
  { intros x E. injection E as _ ->. split; [reflexivity|auto]. }
  destruct c; cbn [plain_call] in P; try discriminate; cbn [py_spec] in S.
  - destruct (new_meta _ _) as [e|[d n]]; [eauto|]. destruct (meta_split _ _ _); [eauto|]. destruct (_ <=? _)%nat; [eauto|].
    destruct S as (rest & _ & S). injection S as -> ->. split; [reflexivity|auto].
  - destruct (file_split _ _); [injection S as -> ->; split; [reflexivity|auto]|eauto].
  - destruct (meta_split _ _ _); [injection S as -> ->; split; [reflexivity|auto]|eauto].
  - eauto.
  - destruct (int_arg v); [eauto|]. injection S as -> ->. destruct a0; split; try reflexivity; discriminate.
  - eauto.
  - destruct v; eauto; injection S as -> ->; (split; [reflexivity|auto]).
  - eauto.
  - eauto.
  - injection S as -> ->. split; [reflexivity|auto].
  - injection S as -> ->. split; [reflexivity|auto].
  - destruct (nth_error _ _) as [[]|]; eauto.
  - destruct (nth_error (a_objs a) k) as [[id ref|id]|] eqn:E; eauto; (destruct (int_arg v); [eauto|]).
    + destruct (meta_split _ _ _) as [[[x w] y]|]; eauto. injection S as -> ->. split; [reflexivity|auto].
    + pose proof (file_split_spec id (a_files a)) as Sp. destruct (file_split _ _) as [[[x g] y]|]; eauto. injection S as -> ->.
      split; [|auto]. unfold same_payload. cbn [set_obj a_set_objs a_set_files a_files]. rewrite covered_rename. now destruct Sp as (-> & _).
  - destruct (nth_error _ _) as [[]|]; eauto.
  - destruct (nth_error (a_objs a) k) as [[id ref|id]|]; eauto.
    destruct (match v with ANone => inr 0 | _ => int_arg v end); [eauto|]. destruct (meta_split _ _ _) as [[[x w] y]|]; eauto.
    injection S as -> ->. split; [reflexivity|auto].
  - destruct (nth_error (a_objs a) k) as [[id ref|id]|]; eauto.
    + destruct (meta_split _ _ _) as [[[x w] y]|]; eauto.
    + destruct (file_split _ _) as [[[x w] y]|]; eauto.
  - destruct (nth_error (a_objs a) k) as [[id ref|id]|]; eauto. destruct (meta_split _ _ _) as [[[x w] y]|]; eauto.
  - destruct (nth_error (a_objs a) k) as [[id ref|id]|]; eauto. destruct (meta_split _ _ _) as [[[x w] y]|]; eauto.
    destruct (data_arg v); eauto. destruct (_ <=? _); eauto. injection S as -> ->. split; [reflexivity|auto].
  - destruct (nth_error (a_objs a) k) as [[id ref|id]|]; eauto. destruct (meta_split _ _ _) as [[[x w] y]|]; eauto.
    destruct (forallb _ _); eauto.
  - destruct (nth_error (a_objs a) k) as [[id ref|id]|]; eauto. destruct (file_split _ _) as [[[x w] y]|]; eauto.
  - destruct (nth_error (a_objs a) k) as [[id ref|id]|]; eauto. destruct (file_split _ _) as [[[x w] y]|]; eauto.
  - destruct (nth_error (a_objs a) k) as [[id ref|id]|]; eauto. destruct (file_split _ _) as [[[x w] y]|]; eauto.
    destruct (f_data w); eauto.
  - rewrite Eo in P. destruct (nth_error (a_objs a) k) as [[id ref|id]|]; try discriminate; eauto.
    destruct (meta_split _ _ _) as [[[x w] y]|]; eauto. injection S as -> ->. split; [reflexivity|auto].
Qed.
Lemma disk_of_mem sha s a : py_inv s a -> current sha s a -> synced s -> payload_hash_ok sha (st_file s) a.
Proof.
  intros Iv C (rest & E). pose proof (hi_wf _ _ (iv_h _ _ Iv)) as W. unfold payload_hash_ok.
  pose proof (zlen_enc_header _ W) as L. rewrite E, ztake_app_l, ztake_all by lia. rewrite dec_enc_header by exact W. exact C.
Qed.
Lemma touch_synced2 s a s' a' : py_inv s a -> py_inv s' a' -> st_file s' = fwrite_at (st_file s) 0 (enc_header (st_header s')) -> synced s'.
Proof.
  intros Iv Iv' E. destruct (iv_file _ _ Iv) as (x & X1 & X2 & X3). pose proof (hi_wf _ _ (iv_h _ _ Iv)) as W.
  exists (body (a_files a)). rewrite E, X3. apply head_write. rewrite !zlen_enc_header; auto.
  - exact (hi_wf _ _ (iv_h _ _ Iv')).
  - now apply wf_with_payload_hash.
Qed.
Definition both sha s a : Prop := current sha s a /\ payload_hash_ok sha (st_file s) a.
Lemma step_both sha s a c : good_hash sha -> py_inv s a -> py_ok a c -> sets_hash_kind c = false -> both sha s a ->
  exists s' r a', py_step sha s c = (s', r) /\ r <> Crash /\ r <> Hang /\ py_spec a c r a' /\ py_inv s' a' /\ both sha s' a'.
Proof.
  intros G Iv Ok Hk [B1 B2]. destruct (plain_call s c) eqn:P.
  - destruct (step_ok sha G s a Iv c Ok) as (s' & r & a' & E & R1 & R2 & S & I'). exists s', r, a'. do 5 (split; [assumption|]).
    destruct (spec_payload a c r a' s (iv_objs _ _ Iv) P S) as [Sp Sk]. specialize (Sk Hk).
    pose proof (step_touch sha s c (iv_fp _ _ Iv) P) as T. rewrite E in T. destruct T as [T1 T2]. cbn [fst] in *.
    assert (C' : current sha s' a') by (unfold current in *; rewrite Sk, T1, Sp; exact B1).
    split; [exact C'|]. destruct T2 as [T2|T2].
    + unfold payload_hash_ok, same_payload, files_covered in *. rewrite T2, Sk, Sp. exact B2.
    + apply disk_of_mem; auto. exact (touch_synced2 s a s' a' Iv I' T2).
  - destruct c; cbn [plain_call] in P; try discriminate.
    + contradiction.
    + destruct (step_add_file_strong sha G s a Iv name data Ok) as (s' & r & a' & E & R1 & R2 & S & I' & Q). exists s', r, a'. do 5 (split; [assumption|]).
      destruct r; cbn [parts_post] in Q; try contradiction.
      * destruct Q as [C Sy]. split; [exact C|]. now apply disk_of_mem.
      * destruct Q as (Q1 & Q2 & ->). unfold both, current. rewrite Q1, Q2. split; [exact B1|exact B2].
    + destruct (step_digest_strong sha G s a Iv) as (s' & r & a' & E & R1 & R2 & S & I' & Q1 & Q2). exists s', r, a'. do 5 (split; [assumption|]).
      assert (a' = a) as ->. { cbn [py_spec] in S. destruct (hash_supported _); [destruct S as (d & _ & S)|]; injection S as _ ->; reflexivity. }
      split; [|rewrite Q1; exact B2]. destruct (hash_supported (a_kind a)) eqn:Hs; [auto|].
      assert (s' = s) as ->; [|exact B1].
      cbn [py_step] in E. unfold py_digest, pkg_update_hash, compute_payload_hash, hash_init in E.
      pose proof (hi_attr _ _ (iv_h _ _ Iv) HashKind) as Ek. cbn [get_attr a_get] in Ek. unfold st_header in Ek. rewrite Ek, Hs in E. cbn [bind] in E.
      injection E as <- _. unfold with_pkg. destruct s as [[? ?] ?]. reflexivity.
    + rewrite (iv_objs _ _ Iv) in P. destruct (nth_error (a_objs a) k) as [[id ref|id]|] eqn:Eo; try discriminate.
      cbn [py_ok] in Ok. rewrite Eo in Ok. destruct Ok as [O1 O2].
      destruct (step_delete_part_strong sha G s a Iv k id Eo O1 O2) as (s' & r & a' & E & R1 & R2 & S & I' & Q). exists s', r, a'. do 5 (split; [assumption|]).
      destruct r; cbn [parts_post] in Q; try contradiction.
      * destruct Q as [C Sy]. split; [exact C|]. now apply disk_of_mem.
      * destruct Q as (Q1 & Q2 & ->). unfold both, current. rewrite Q1, Q2. split; [exact B1|exact B2].
Qed.
Theorem run_both sha : good_hash sha -> forall cs s a, py_inv s a -> py_allowed a cs -> forallb (fun c => negb (sets_hash_kind c)) cs = true -> both sha s a ->
  exists s' rs a', py_run sha s cs = (s', rs) /\ ~ In Crash rs /\ ~ In Hang rs /\ py_specs a cs rs a' /\ py_inv s' a' /\ both sha s' a'.
Proof.
  intros G. induction cs as [|c cs IH]; intros s a Iv Ok Nk B.
  - exists s, [], a. split; [reflexivity|]. split; [tauto|]. split; [tauto|]. split; [constructor|auto].
  - destruct Ok as [Oc Or]. cbn [forallb] in Nk. apply andb_prop in Nk as [N1 N2].
    destruct (step_both sha s a c G Iv Oc ltac:(destruct (sets_hash_kind c); auto) B) as (s1 & r & a1 & E1 & R1 & R2 & S1 & I1 & B1).
    destruct (IH s1 a1 I1 (Or r a1 S1) N2 B1) as (s2 & rs & a2 & E2 & R3 & R4 & S2 & I2 & B2).
    exists s2, (r :: rs), a2. cbn [py_run]. rewrite E1, E2. split; [destruct r; congruence|].
    split; [intros [C|C]; contradiction|]. split; [intros [C|C]; contradiction|]. split; [|auto].
    econstructor; eauto.
Qed.
Lemma open_both sha f a s : payload_hash_ok sha f a -> py_new sha true (Some f) = (Some f, inl s) -> 4096 <= zlen f -> both sha s (forget a).
Proof.
  intros Hp E L. unfold py_new in E. destruct (open_existing sha true f L) as (A & B & _).
  destruct (pkg_open sha true f) as [f' [p| | |]]; try discriminate. cbn [fst snd] in *. subst f'.
  assert (Es : s = mkSt (mkPy (FpOpen true) p) []) by congruence. subst s.
  destruct (B p) as [B1 _]. destruct (B1 eq_refl) as [_ ->]. split; exact Hp.
Qed.
Lemma package_file_len f a : package_file f a -> 4096 <= zlen f.
Proof.
  intros (h & es & H & _). pose proof (ho_file _ _ H) as F. pose proof (zlen_enc_header _ (ho_wf _ _ H)) as L. cbn [pk_header pk_file] in *.
  rewrite F, zlen_app, L. pose proof (zlen_nonneg (concat (map snd es))). lia.
Qed.
Theorem sessions_hash sha : good_hash sha -> forall css f a, package_file f a -> payload_hash_ok sha f a -> sessions_allowed a css ->
  Forall (fun cs => forallb (fun c => negb (sets_hash_kind c)) cs = true) css ->
  exists f' rss a', py_sessions sha f css = (f', rss) /\ session_specs a css rss a' /\ package_file f' a' /\ payload_hash_ok sha f' a'.
Proof.
  intros G. induction css as [|cs css IH]; intros f a Pf Ph Ok Nk.
  - exists f, [], a. split; [reflexivity|]. split; [constructor|auto].
  - destruct Ok as (K & Oc & Or). inversion Nk as [|? ? N1 N2]; subst.
    destruct (open_package sha f a true Pf K) as (s & En & _ & _ & _ & _ & Iv). specialize (Iv eq_refl).
    pose proof (open_both sha f a s Ph En (package_file_len _ _ Pf)) as Bo.
    destruct (run_both sha G cs s (forget a) Iv Oc N1 Bo) as (s1 & rs & a1 & E1 & C1 & C2 & S1 & I1 & [_ Bd]).
    pose proof (run_app sha cs [KClose] s s1 rs E1 C1 C2) as Ec.
    assert (Ecl : py_run sha s1 [KClose] = (mkSt (mkPy FpNull (mkPkg zero_header (st_file s1))) (st_handles s1), [Val VNone])).
    { cbn [py_run py_step]. unfold py_close. rewrite (iv_fp _ _ I1). reflexivity. }
    rewrite Ecl in Ec. cbn [fst snd] in Ec.
    destruct (IH (st_file s1) a1 (file_of_inv _ _ I1) Bd (Or rs a1 S1) N2) as (f' & rss & a' & E' & S' & P' & H').
    exists f', ((rs ++ [Val VNone]) :: rss), a'. cbn [py_sessions]. rewrite En, Ec.
    assert (Fi : finished (rs ++ [Val VNone]) = true).
    { apply finished_iff. split; intros C; apply in_app_or in C as [C|[C|C]]; try contradiction; discriminate. }
    rewrite Fi. change (st_file (mkSt (mkPy FpNull (mkPkg zero_header (st_file s1))) (st_handles s1))) with (st_file s1).
    rewrite E'. split; [reflexivity|]. split; [|auto]. econstructor; eauto.
Qed.
(* adding a file or deleting a part brings it up to date, whatever happened before *)
Theorem parts_refresh sha s a c s' v : good_hash sha -> py_inv s a -> py_ok a c ->
  match c with KAddFile _ _ => True | KDelete k => exists id, nth_error (a_objs a) k = Some (HPart id) | _ => False end ->
  py_step sha s c = (s', Val v) -> exists a', py_spec a c (Val v) a' /\ package_file (st_file s') a' /\ payload_hash_ok sha (st_file s') a'.
Proof.
  intros G Iv Ok Hc E. destruct c; try contradiction.
  - destruct (step_add_file_strong sha G s a Iv name data Ok) as (s1 & r & a' & E1 & _ & _ & S & I' & Q). rewrite E in E1. injection E1 as <- <-.
    cbn [parts_post] in Q. destruct Q as [C Sy]. exists a'. split; auto. split; [now apply file_of_inv|now apply disk_of_mem].
  - destruct Hc as (id & Eo). cbn [py_ok] in Ok. rewrite Eo in Ok. destruct Ok as [O1 O2].
    destruct (step_delete_part_strong sha G s a Iv k id Eo O1 O2) as (s1 & r & a' & E1 & _ & _ & S & I' & Q). rewrite E in E1. injection E1 as <- <-.
    cbn [parts_post] in Q. destruct Q as [C Sy]. exists a'. split; auto. split; [now apply file_of_inv|now apply disk_of_mem].
Qed.
(* assigning hash_kind leaves the stored hash as it is *)
Theorem hash_kind_stale sha s a n : py_inv s a -> 0 <= n < 2^64 ->
  exists s', py_step sha s (KSet HashKind (AInt n)) = (s', Val VNone) /\
    package_file (st_file s') (a_set a HashKind n) /\
    h_payload_hash (dec_header (ztake 4096 (st_file s'))) = h_payload_hash (st_header s).
Proof.
  intros Iv Hn. cbn [py_step]. unfold py_set_attr, as_uint.
  destruct (Z.ltb_spec n 0); [lia|]. destruct (Z.geb_spec n 18446744073709551616); [lia|]. cbn [orb].
  pose proof (hinv_attr _ _ HashKind n (iv_h _ _ Iv)) as H'. change (n mod 2^32) with (u32 n) in H'.
  destruct (store_ok0 s a _ (a_set a HashKind n) VNone Iv H' eq_refl eq_refl) as (s' & Es & I' & Eh). exists s'. split; [exact Es|].
  split; [now apply file_of_inv|].
  assert (Sy : synced s').
  { apply (touch_synced2 s a s' (a_set a HashKind n) Iv I'). unfold store in Es. rewrite (iv_fp _ _ Iv) in Es.
    apply (f_equal fst) in Es. cbn [fst] in Es. subst s'. reflexivity. }
  destruct Sy as (rest & E). pose proof (hi_wf _ _ (iv_h _ _ I')) as W. pose proof (zlen_enc_header _ W) as L.
  rewrite E, ztake_app_l, ztake_all by lia. rewrite dec_enc_header by exact W. rewrite Eh. reflexivity.
Qed.
