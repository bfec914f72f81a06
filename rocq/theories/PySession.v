(* PySession.v -- packages on disk, opening, closing, sessions *)
From Verif Require Import BaseLemmas HeaderModel HeaderSpec HeaderHistory CodecProofs PartProofs MetaProofs CrcModel CrcProofs HashModel MerkleModel
  VerifyModel VerifySpec VerifyProofs VerifySign VerifyWitness PkgModel PkgSpec PkgProofs PkgAdd PkgDelete PkgHistory PkgApi
  PyModel PySpec PyInv PyProofs.

Lemma file_of_inv s a : py_inv s a -> package_file (st_file s) a.
Proof.
  intros Iv. destruct (iv_file _ _ Iv) as (x & X1 & X2 & X3). pose proof (hinv_hash _ _ x (iv_h _ _ Iv) X1 X2) as H.
  destruct H as [(es & H & O & F) P M N Mg A S]. set (hd := HeaderModel.with_payload_hash (st_header s) x) in *.
  exists hd, es. split.
  { unfold headed in H. rewrite (body_eq _ _ F), <- X3 in H. exact H. }
  split; auto. split; [exact F|]. split; auto. split; auto. split; auto. split; auto.
  split; [|exact S]. split; [exact (A HashKind)|]. split; [exact (A SignatureKind)|]. split; [exact (A KeyId)|exact (A KeystoreId)].
Qed.
Lemma forget_file f a : package_file f a <-> package_file f (forget a).
Proof. split; intros H; exact H. Qed.
Lemma open_package sha f a w : package_file f a -> a_kind a <> 0 ->
  exists s, py_new sha w (Some f) = (Some f, inl s) /\ st_file s = f /\ py_fp (st_obj s) = FpOpen w /\ st_handles s = [] /\
    hinv (st_header s) (forget a) /\ (w = true -> py_inv s (forget a)).
Proof.
  intros (h & es & H & O & F & P & M & N & Mg & (A1 & A2 & A3 & A4) & S) K.
  assert (V : valid_header h = Ok tt).
  { apply valid_header_iff. split; [exact Mg|]. split; [|split; [|congruence]].
    - apply (holds_aligned _ _ H). eapply matches_aligned. exact F.
    - eapply metas_are_in_bounds; eauto. }
  pose proof (reopen sha w (mkPkg h f) es H V) as R. cbn [pk_file] in R.
  exists (mkSt (mkPy (FpOpen w) (mkPkg h f)) []). split; [unfold py_new; rewrite R; reflexivity|].
  split; [reflexivity|]. split; [reflexivity|]. split; [reflexivity|].
  assert (Hi : hinv h (forget a)).
  { constructor; auto.
    - exists es. split; auto. pose proof (ho_file _ _ H) as Ff. cbn [pk_header pk_file] in Ff. unfold headed. rewrite <- Ff. exact H.
    - intros []; cbn [get_attr a_get forget a_set_objs a_kind a_sigkind a_key a_keystore]; auto. }
  split; [exact Hi|]. intros ->. constructor; auto.
  - constructor.
  - destruct (wf_payload_hash _ (ho_wf _ _ H)) as [L1 L2]. exists (h_payload_hash h). split; auto. split; auto.
    unfold st_header, st_file. cbn [st_obj py_pkg pk_header pk_file]. rewrite hash_id.
    pose proof (ho_file _ _ H) as Ff. cbn [pk_header pk_file] in Ff. rewrite Ff, (body_eq _ _ F). reflexivity.
Qed.
Lemma new_package sha : good_hash sha ->
  exists s, py_new sha true (Some []) = (Some (st_file s), inl s) /\ py_inv s new_apkg.
Proof.
  intros G. destruct (open_short sha [] G ltac:(reflexivity)) as [_ E]. cbn [app] in E. unfold py_new. rewrite E.
  exists (mkSt (mkPy (FpOpen true) (mkPkg (fresh_header sha) (enc_header (fresh_header sha)))) []).
  split; [reflexivity|]. pose proof (fresh_wf sha G) as W. pose proof (zlen_enc_header _ W) as L.
  assert (Hh : hinv (fresh_header sha) new_apkg).
  { constructor.
    - exists []. split; [|split; [exact I|constructor]].
      unfold headed. constructor; cbn [pk_header pk_file map concat length]; auto.
      + lia.
      + constructor.
      + rewrite app_nil_r, L. lia.
    - constructor.
    - exact metas_are_init.
    - apply Forall_forall. intros m Hm. cbn [h_meta fresh_header with_digest VerifyModel.with_payload_hash init_header] in Hm.
      apply repeat_spec in Hm as ->. reflexivity.
    - reflexivity.
    - intros []; reflexivity.
    - split; [cbn; lia|]. split; reflexivity. }
  constructor; auto.
  - constructor.
  - destruct (wf_payload_hash _ W) as [L1 L2]. exists (h_payload_hash (fresh_header sha)). split; auto. split; auto.
    unfold st_header, st_file. cbn [st_obj py_pkg pk_header pk_file]. rewrite hash_id. unfold body. cbn [new_apkg a_files map concat].
    now rewrite app_nil_r.
Qed.

Lemma run_app sha cs ds : forall s s' rs, py_run sha s cs = (s', rs) -> ~ In Crash rs -> ~ In Hang rs ->
  py_run sha s (cs ++ ds) = (fst (py_run sha s' ds), rs ++ snd (py_run sha s' ds)).
Proof.
  induction cs as [|c cs IH]; intros s s' rs E C H; cbn [py_run app] in *.
  - injection E as <- <-. cbn [app]. apply surjective_pairing.
  - destruct (py_step sha s c) as [s1 r] eqn:Es.
    destruct r; try (injection E as <- <-; cbn [In] in *; tauto);
    destruct (py_run sha s1 cs) as [s2 xs] eqn:Er; injection E as <- <-;
    (rewrite (IH s1 s2 xs Er); [reflexivity|cbn [In] in C; tauto|cbn [In] in H; tauto]).
Qed.
Lemma finished_iff rs : finished rs = true <-> ~ In Crash rs /\ ~ In Hang rs.
Proof.
  unfold finished. rewrite forallb_forall. split.
  - intros H. split; intros C; specialize (H _ C); discriminate.
  - intros [C H] r Hr. destruct r; auto; contradiction.
Qed.
Theorem sessions_ok sha : good_hash sha -> forall css f a, package_file f a -> sessions_allowed a css ->
  exists f' rss a', py_sessions sha f css = (f', rss) /\ session_specs a css rss a' /\ package_file f' a'.
Proof.
  intros G. induction css as [|cs css IH]; intros f a Pf Ok.
  - exists f, [], a. split; [reflexivity|]. split; [constructor|exact Pf].
  - destruct Ok as (K & Oc & Or). destruct (open_package sha f a true Pf K) as (s & En & _ & _ & _ & _ & Iv). specialize (Iv eq_refl).
    destruct (run_ok sha G cs s (forget a) Iv Oc) as (s1 & rs & a1 & E1 & C1 & C2 & S1 & I1).
    pose proof (run_app sha cs [KClose] s s1 rs E1 C1 C2) as Ec.
    assert (Ecl : py_run sha s1 [KClose] = (mkSt (mkPy FpNull (mkPkg zero_header (st_file s1))) (st_handles s1), [Val VNone])).
    { cbn [py_run py_step]. unfold py_close. rewrite (iv_fp _ _ I1). reflexivity. }
    rewrite Ecl in Ec. cbn [fst snd] in Ec.
    destruct (IH (st_file s1) a1 (file_of_inv _ _ I1) (Or rs a1 S1)) as (f' & rss & a' & E' & S' & P').
    exists f', ((rs ++ [Val VNone]) :: rss), a'. cbn [py_sessions]. rewrite En, Ec.
    assert (Fi : finished (rs ++ [Val VNone]) = true).
    { apply finished_iff. split; intros C; apply in_app_or in C as [C|[C|C]]; try contradiction; discriminate. }
    rewrite Fi. change (st_file (mkSt (mkPy FpNull (mkPkg zero_header (st_file s1))) (st_handles s1))) with (st_file s1).
    rewrite E'. split; [reflexivity|]. split; [|exact P']. econstructor; eauto.
Qed.
