(* UpdateProofs.v -- packages made by commands can be sent as updates *)
From Coq Require Import String.
From Verif Require Import BaseLemmas HeaderModel HeaderSpec HeaderHistory CodecProofs PartProofs MetaProofs CrcModel CrcProofs HashModel
  MerkleModel MerkleSpec MerkleProofs MerkleApi VerifyModel VerifySpec VerifyProofs VerifySign VerifyWitness PkgModel PkgSpec PkgProofs PkgAdd PkgDelete PkgHistory PkgApi PkgTrees PkgMerkle
  TransportFile UtilModel PkgForget PkgCanon CliModel CliSpec CliMeta CliArgs CliStep CliProofs CliSign ImageSpec ImageProofs ImageSteps ImageMain ImageClaims CliFresh
  TransportModel TransportSpec UpdateSpec.
Local Open Scope Z_scope.
Local Open Scope list_scope.

(* ---- contents are bytes ---- *)
Lemma bytes_ok_block_hashes sha salt : good_hash sha -> forall k d, bytes_ok (block_hashes sha salt k d).
Proof.
  intros G. induction k as [|k IH]; intros d; cbn [block_hashes]; [constructor|]. apply bytes_ok_app. split; [apply (G 1 _ eq_refl)|apply IH].
Qed.
Lemma bytes_ok_tree sha salt d ls : good_hash sha -> hash_levels sha salt d ls -> bytes_ok (hash_tree ls).
Proof.
  intros G H. assert (L : forall d, bytes_ok (level_above sha salt d)).
  { intros x. unfold level_above. apply bytes_ok_app. split; [now apply bytes_ok_block_hashes|apply bytes_ok_zeros]. }
  induction H as [d _|d ls _ _ IH].
  - unfold hash_tree. cbn [rev app concat]. rewrite app_nil_r. apply L.
  - rewrite hash_tree_cons. apply bytes_ok_app. auto.
Qed.
Definition data_bytes (w : world) : Prop := Forall (fun f => bytes_ok (f_data f)) (w_files w).
Lemma Forall_filter {A} (P : A -> Prop) g l : Forall P l -> Forall P (filter g l).
Proof. intros H. apply Forall_forall. intros x Hx. apply filter_In in Hx as [Hx _]. rewrite Forall_forall in H. auto. Qed.
Lemma cmd_bytes sha w c w' out r : good_hash sha -> fits w c = true -> spec_cmd sha w c w' out r -> data_bytes w -> data_bytes w'.
Proof.
  intros G F S D.
  assert (Am : forall id ref v, (w', r) = spec_add_meta w id ref v -> data_bytes w').
  { intros id ref v E. unfold spec_add_meta in E. destruct (existsb _ _); [congruence|]. destruct (_ <? _); [congruence|]. injection E as -> _. exact D. }
  destruct c as [h s|name data dh|name data salt dh|name ref src enc|part enc dec|name s enc|key ks|part keep|keep|part|meta ref|sig]; cbn [spec_cmd fits] in *.
  - destruct S as [_ S]. destruct (hash_named h); [destruct (sign_named s)|]; destruct S as [-> _]; auto. constructor.
  - apply andb_prop in F as [F _]. apply andb_prop in F as [_ F]. apply all_bytes_ok in F. cbn [spec_pkg_op] in S.
    destruct (existsb _ _); [destruct S as [-> _]; destruct w; exact D|]. destruct (_ <=? _)%nat; [destruct S as [-> _]; destruct w; exact D|].
    destruct S as [-> _]. unfold data_bytes. cbn [w_files set_files]. apply Forall_app. split; [exact D|]. constructor; [exact F|constructor].
  - destruct S as (ls & Hl & _ & _ & ->). do 14 (apply andb_prop in F as [F ?]). repeat match goal with H : (_ && _) = true |- _ => apply andb_prop in H as [? ?] end.
    unfold data_bytes. cbn [w_files set_files set_metas]. apply Forall_app. split; [exact D|].
    constructor; [cbn [f_data]; apply all_bytes_ok; assumption|]. constructor; [cbn [f_data]; eapply bytes_ok_tree; eauto|constructor].
  - destruct S as [_ S]. destruct (meta_value src enc) as [v|e| |]; try contradiction; [exact (Am _ _ _ S)|]. destruct S as [-> _]. exact D.
  - destruct S as (_ & stale & _ & S). exact (Am _ _ _ S).
  - destruct S as [_ S]. unfold spec_set_meta in S. cbv zeta in S.
    repeat match type of S with
    | _ = match ?x with _ => _ end => destruct x
    | _ = if ?x then _ else _ => destruct x
    end; injection S as -> _; exact D.
  - destruct S as [_ S]. destruct key, ks; destruct S as [A B]; try (rewrite A; exact D); subst; exact D.
  - destruct S as [_ S]. destruct (_ =? 0); [destruct S as [-> _]; exact D|]. destruct (existsb _ _); [|destruct S as [-> _]; exact D].
    destruct S as [_ ->]. unfold data_bytes. cbn [w_files set_files set_metas]. now apply Forall_filter.
  - destruct S as (_ & _ & ->). constructor.
  - destruct S as [-> _]. exact D.
  - destruct S as [-> _]. exact D.
  - destruct S as [_ S]. destruct sig; destruct S as [A B]; subst; exact D.
Qed.
Theorem made_ok sha f w : good_hash sha -> made sha f w ->
  exists p, pk_file p = f /\ st sha p w /\ clean (pk_header p) /\ data_bytes w.
Proof.
  intros G. induction 1 as [hash sign hk sk f0 Hh Hs|f w c w' M IH F S].
  - pose proof (create_ok sha hash sign f0 G) as C. rewrite Hh, Hs in C. pose proof (create_pristine sha hash sign f0 hk sk G Hh Hs) as P.
    cbn [run_cmd]. destruct (cli_create sha hash sign f0) as [[f' out] r]. destruct C as (-> & -> & p & E & S). cbn [fst] in *.
    rewrite <- E, (st_header _ _ _ S) in P. exists p. split; [exact E|]. split; [exact S|]. split; [apply (pr_parts _ P)|constructor].
  - destruct IH as (p & <- & Sp & Cl & D). pose proof (clean_cmd sha p w c G Sp Cl F) as C. pose proof (cmd_step sha p w c G Sp F) as St. unfold step_ok in St.
    destruct (run_cmd sha c (pk_file p)) as [[f1 out] r] eqn:E1. cbn [fst] in *. destruct St as (p1 & w1 & E2 & S1 & Sc).
    assert (X : stored sha f1 w1) by (apply stored_st; exists p1; auto).
    pose proof (stored_unique sha f1 w' w1 S X) as ->. exists p1. split; [exact E2|]. split; [exact S1|].
    rewrite <- E2, (st_header _ _ _ S1) in C. split; [exact C|]. eapply cmd_bytes; eauto.
Qed.

(* ---- metadata ---- *)
Lemma metas_slot h live e : metas_are (h_meta h) (h_metadata h) live -> In e live ->
  exists a b pre m post, live = a ++ e :: b /\ h_meta h = pre ++ m :: post /\ m_id m = e_id e /\ m_ref m = e_ref e /\
    Forall (fun x => ~ (m_id x = e_id e /\ m_ref x = e_ref e)) pre /\ m_offset m = meta_end a /\
    meta_end a + zlen (e_val e) <= 1920 /\ slice (meta_end a) (zlen (e_val e)) (h_metadata h) = e_val e.
Proof.
  intros (L1 & L2 & L3 & Nd & Nz & H & T) He. apply in_split in He as (a & b & ->).
  destruct (H (length a) e) as (B & Sl & m & Hm & I1 & I2 & I3 & I4).
  { rewrite nth_error_app2, Nat.sub_diag by lia. reflexivity. }
  rewrite firstn_app, Nat.sub_diag, firstn_all, firstn_O, app_nil_r in *.
  apply nth_error_split in Hm as (pre & post & Hs & Lp). exists a, b, pre, m, post. split; [reflexivity|]. split; [exact Hs|]. split; [exact I1|]. split; [exact I2|].
  split; [|auto]. apply Forall_forall. intros x Hx [X1 X2]. apply In_nth_error in Hx as (i & Hi).
  assert (Li : (i < length pre)%nat) by (apply nth_error_Some; congruence).
  assert (Hsi : nth_error (h_meta h) i = Some x) by (rewrite Hs, nth_error_app1 by lia; exact Hi).
  destruct (nth_error a i) as [y|] eqn:Ey; [|apply nth_error_None in Ey; lia].
  destruct (H i y) as (_ & _ & m' & Hm' & J1 & J2 & _ & _); [rewrite nth_error_app1 by lia; exact Ey|].
  rewrite Hm' in Hsi. injection Hsi as ->. rewrite map_app in Nd. cbn [map] in Nd. apply NoDup_remove_2 in Nd. apply Nd. apply in_or_app. left.
  apply in_map_iff. exists y. split; [f_equal; congruence|]. eapply nth_error_In; eauto.
Qed.
Lemma metas_none h live id ref : metas_are (h_meta h) (h_metadata h) live -> id <> 0 ->
  (forall e, In e live -> ~ (e_id e = id /\ e_ref e = ref)) -> no_meta h id ref.
Proof.
  intros (L1 & L2 & L3 & Nd & Nz & H & T) Hid N. apply Forall_forall. intros x Hx [X1 X2]. apply In_nth_error in Hx as (i & Hi).
  destruct (nth_error live i) as [y|] eqn:Ey.
  - destruct (H i y Ey) as (_ & _ & m & Hm & J1 & J2 & _). rewrite Hm in Hi. injection Hi as ->. apply (N y); [eapply nth_error_In; eauto|]. split; congruence.
  - apply nth_error_None in Ey. assert (Li : (i < length (h_meta h))%nat) by (apply nth_error_Some; congruence).
    destruct (T i ltac:(lia)) as (m & Hm & Z). rewrite Hm in Hi. injection Hi as ->. congruence.
Qed.
Lemma starts_of h live e v rest : metas_are (h_meta h) (h_metadata h) live -> In e live -> e_val e = v ++ rest -> meta_starts h (e_id e) (e_ref e) v.
Proof.
  intros M He Ev. destruct (metas_slot h live e M He) as (a & b & pre & m & post & _ & Hs & I1 & I2 & Fa & Io & B & Sl).
  exists pre, m, post. rewrite Ev, zlen_app in *. pose proof (zlen_nonneg rest). pose proof (meta_end_nonneg a). pose proof (zlen_nonneg v).
  split; [exact Hs|]. split; [exact I1|]. split; [exact I2|]. split; [exact Fa|]. rewrite Io. split; [lia|].
  rewrite <- (ztake_all (zlen v) v) at 2 by lia. rewrite <- (ztake_app_l _ v rest) by lia. rewrite <- Sl.
  unfold slice. rewrite ztake_ztake by lia. f_equal. lia.
Qed.
Lemma idn_transport : idn "bpak-transport" = bpak_transport. Proof. vm_compute. reflexivity. Qed.
Lemma idn_package : idn "bpak-package" = 0xfb2f1f3f. Proof. vm_compute. reflexivity. Qed.
Lemma idn_salt : idn "merkle-salt" = 0x7c9b2f93. Proof. vm_compute. reflexivity. Qed.
Lemma setting_of h w id s : metas_are (h_meta h) (h_metadata h) (w_metas w) -> travels_as w id s -> has_setting h id s.
Proof.
  intros M. unfold travels_as. rewrite idn_transport.
  assert (Go : forall v, (exists e rest, In e (w_metas w) /\ e_id e = bpak_transport /\ e_ref e = id /\ e_val e = v ++ rest) -> meta_starts h bpak_transport id v).
  { intros v (e & rest & He & E1 & E2 & E3). rewrite <- E1, <- E2. eapply starts_of; eauto. }
  destruct s; cbn [algorithms has_setting].
  - intros N. apply (metas_none h (w_metas w)); [exact M|discriminate|exact N].
  - intros (e & rest & A). apply Go. exists e, rest. rewrite <- app_assoc.
    replace (idn "bsdiff-no-comp") with 0x0a878e3e in A by (vm_compute; reflexivity). replace (idn "bspatch-no-comp") with 0x75622592 in A by (vm_compute; reflexivity). exact A.
  - intros (e & rest & A). apply Go. exists e, rest. rewrite <- app_assoc.
    replace (idn "bsdiff") with 0x9f7aacf9 in A by (vm_compute; reflexivity). replace (idn "bspatch") with 0xb5964388 in A by (vm_compute; reflexivity). exact A.
  - intros (e & rest & A). apply Go. exists e, rest. rewrite <- app_assoc.
    replace (idn "bsdiff-lzma") with 0x1607e56e in A by (vm_compute; reflexivity). replace (idn "bspatch-lzma") with 0x933a9893 in A by (vm_compute; reflexivity). exact A.
  - intros (e & rest & A). apply Go. exists e, rest. rewrite <- app_assoc.
    replace (idn "remove-data") with 0x57004cd0 in A by (vm_compute; reflexivity). replace (idn "merkle-generate") with 0xb5bcc58f in A by (vm_compute; reflexivity). exact A.
Qed.
Lemma uuid_of h live a b u : metas_are (h_meta h) (h_metadata h) live -> live = a ++ mkEntry (idn "bpak-package") 0 u :: b -> zlen u = 16 -> uuid_at h (meta_end a) u.
Proof.
  intros M El Lu. set (e := mkEntry (idn "bpak-package") 0 u) in *. rewrite El in M.
  assert (He : In e (a ++ e :: b)) by (apply in_or_app; right; left; reflexivity).
  destruct (metas_slot h _ e M He) as (a' & b' & pre & m & post & Es & Hs & I1 & I2 & Fa & Io & B & Sl).
  assert (Ea : a' = a).
  { pose proof M as (_ & _ & _ & Nd & _). clear - Es Nd. revert a' Es Nd. induction a as [|x a IH]; intros [|y a'] Es Nd; cbn [app] in *.
    - reflexivity.
    - injection Es as -> Es. exfalso. cbn [map] in Nd. apply NoDup_cons_iff in Nd as [N _]. apply N. rewrite Es. apply in_map_iff. exists y. split; [reflexivity|].
      apply in_or_app. right. left. reflexivity.
    - injection Es as -> Es. exfalso. cbn [map] in Nd. apply NoDup_cons_iff in Nd as [N _]. apply N. apply in_map_iff. exists e. split; [reflexivity|].
      apply in_or_app. right. left. reflexivity.
    - injection Es as -> Es. f_equal. apply IH; [exact Es|]. cbn [map] in Nd. now apply NoDup_cons_iff in Nd as [_ N]. }
  subst a'. cbn [e e_id e_ref e_val] in *. rewrite idn_package in *. rewrite Lu in *.
  exists pre, m, post. auto 10.
Qed.
Lemma Forall2_In_r {A B} (R : A -> B -> Prop) la lb y : Forall2 R la lb -> In y lb -> exists x, In x la /\ R x y.
Proof.
  intros H. induction H as [|a b la lb HR _ IH]; [intros []|]. intros [->|Hy]; [exists a; split; [now left|exact HR]|].
  destruct (IH Hy) as (x & X1 & X2). exists x. split; [now right|exact X2].
Qed.
Lemma Forall2_In_l {A B} (R : A -> B -> Prop) la lb x : Forall2 R la lb -> In x la -> exists y, In y lb /\ R x y.
Proof.
  intros H. induction H as [|a b la lb HR _ IH]; [intros []|]. intros [->|Hx]; [exists b; split; [now left|exact HR]|].
  destruct (IH Hx) as (y & X1 & X2). exists y. split; [now right|exact X2].
Qed.

Section Main.
Context (sha : hashfn) (G : good_hash sha) (new old : world) (p q : pkg) (stt : Z -> setting).
Context (Sp : st sha p new) (Cp : clean (pk_header p)) (Dp : data_bytes new) (Sq : st sha q old) (U : update sha new old stt).
Definition comes_from (fs : list fentry) (es : list (parth * bytes)) : Prop :=
  forall e, In e es -> exists f, In f fs /\ snd e = file_stored f /\ p_id (fst e) = f_id f.
Lemma update_transportable : exists es, transportable sha p es stt /\ comes_from (w_files new) es /\ exists eo, origin_for q eo p es /\ comes_from (w_files old) eo.
Proof using All.
  pose proof Sp as [I M _]. pose proof I as [(es & H & O & F) P V _ _ _]. pose proof (hm_are _ _ M) as Ma.
  pose proof Sq as [Iq Mq _]. pose proof Iq as [(eo & Hq & _ & Fq) _ Vq _ _ _]. pose proof (hm_are _ _ Mq) as Mqa.
  pose proof (proj1 (clean_holds _ _ H) Cp) as Cl. destruct (up_size _ _ _ _ U) as [Z1 Z2].
  exists es. split; [|split; [intros e He; destruct (Forall2_In_r _ _ _ _ F He) as (f & Hf & (E1 & E2 & _)); exists f; auto|]].
  - constructor.
    + exact H.
    + intros ->. inversion F as [E|]. apply (up_some _ _ _ _ U). auto.
    + eapply plain_of; eauto.
    + apply Forall_forall. intros e He. rewrite Forall_forall in Cl. apply (Cl (fst e)). now apply in_map.
    + rewrite (st_size _ _ _ Sp). exact Z1.
    + apply Forall_forall. intros e He. destruct (Forall2_In_r _ _ _ _ F He) as (f & Hf & (E1 & _)). rewrite E1. unfold file_stored.
      apply bytes_ok_app. split; [|apply bytes_ok_zeros]. unfold data_bytes in Dp. rewrite Forall_forall in Dp. auto.
    + apply Forall_forall. intros e He. destruct (Forall2_In_r _ _ _ _ F He) as (f & Hf & (_ & E2 & _)). rewrite E2.
      eapply setting_of; [exact Ma|]. apply (up_travel _ _ _ _ U f Hf).
    + apply Forall_forall. intros e He Es. destruct (In_nth_error _ _ He) as (k & Hk).
      destruct (Forall2_In_r _ _ _ _ F He) as (f & Hf & (E1 & E2 & _)). rewrite E2 in Es.
      destruct (up_trees _ _ _ _ U f Hf Es) as (a & d & b & c & salt & ls & El & Ei & Hs & Ls & Ld & Lm & Hl & Et).
      rewrite El in F. destruct (Forall2_split _ _ _ _ _ _ F eq_refl) as (ea & ed & er & Eq & Fa & Fd & Fr).
      destruct (Forall2_split _ _ _ _ _ _ Fr eq_refl) as (eb & et & ec & Eq2 & Fb & Ft & Fc).
      destruct ed as [pd cd]. destruct Fd as (D1 & D2 & _). destruct Ft as (T1 & T2 & _). cbn [fst snd] in *.
      assert (Ee : e = et).
      { assert (Hin : In et es) by (rewrite Eq, Eq2; apply in_or_app; right; right; apply in_or_app; right; left; reflexivity).
        assert (Nd := ho_distinct _ _ H). clear - Nd He Hin E2 T2. assert (X : p_id (fst e) = p_id (fst et)) by congruence.
        clear E2 T2. induction es as [|x l IH]; [destruct He|]. cbn [map] in Nd. apply NoDup_cons_iff in Nd as [N1 N2].
        destruct He as [->|He], Hin as [->|Hin]; auto; exfalso; apply N1; apply in_map_iff; eauto. }
      subst et. assert (Pd : cd = f_data d).
      { rewrite D1. unfold file_stored, padding. rewrite Z.mod_opp_l_z; [apply app_nil_r|lia|]. change 4096 with (512 * 8) in Lm. lia. }
      destruct (build_tree_ok sha (f_data d) salt ls G Ld Lm Ls Hl) as (_ & At).
      assert (Pt : snd e = hash_tree ls).
      { rewrite T1. unfold file_stored, padding. rewrite Et. rewrite Z.mod_opp_l_z; [apply app_nil_r|lia|]. change 4096 with (512 * 8) in At. lia. }
      exists ea, pd, cd, eb, ec, salt, ls. destruct e as [pe ce]. cbn [fst snd] in *. rewrite <- Eq2. rewrite Pd. split; [congruence|].
      split; [congruence|]. split; [|auto 10]. rewrite D2, <- idn_salt.
      apply (starts_of (pk_header p) _ (mkEntry (idn "merkle-salt") (f_id d) salt) salt [] Ma Hs). cbn [e_val]. now rewrite app_nil_r.
  - exists eo. split; [|intros e He; destruct (Forall2_In_r _ _ _ _ Fq He) as (f & Hf & (E1 & E2 & _)); exists f; auto].
    constructor; [exact Hq|rewrite (st_size _ _ _ Sq); exact Z2| |].
    + destruct (up_uuid _ _ _ _ U) as (u & a & b & c & d & Lu & Em & E1 & E2). exists (meta_end a), u. split.
      * rewrite Em. eapply uuid_of; eauto.
      * eapply uuid_of; eauto.
    + intros e He. destruct (Forall2_In_r _ _ _ _ F He) as (f & Hf & (_ & E2 & _)). destruct (up_files _ _ _ _ U f Hf) as (g & Hg & Eg).
      destruct (Forall2_In_l _ _ _ _ Fq Hg) as (o & Ho & (_ & E3 & _)). exists o. split; [exact Ho|]. congruence.
Qed.
End Main.
