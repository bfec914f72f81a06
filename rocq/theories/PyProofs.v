(* PyProofs.v -- every covered call does what PySpec.v says *)
From Verif Require Import BaseLemmas HeaderModel HeaderSpec CodecProofs PartProofs MetaProofs CrcModel CrcProofs HashModel MerkleModel
  VerifyModel VerifySpec VerifyProofs VerifySign VerifyWitness PkgModel PkgSpec PkgProofs PkgAdd PkgDelete PkgHistory PkgApi
  PyModel PySpec PyInv.

Section Step.
Variable sha : hashfn.
Variable G : good_hash sha.
Variables (s : pyst) (a : apkg).
Variable Iv : py_inv s a.

Definition goes (c : pycall) : Prop :=
  exists s' r a', py_step sha s c = (s', r) /\ r <> Crash /\ r <> Hang /\ py_spec a c r a' /\ py_inv s' a'.
(* the payload hash in the header is that of the files *)
Definition current (t : pyst) (b : apkg) : Prop :=
  slice 0 (digest_len (a_kind b)) (h_payload_hash (st_header t)) = sha (a_kind b) (files_covered (a_files b)).
Definition synced (t : pyst) : Prop := exists rest, st_file t = enc_header (st_header t) ++ rest.
Definition gets (Q : pyst -> pyres -> apkg -> Prop) (c : pycall) : Prop :=
  exists s' r a', py_step sha s c = (s', r) /\ r <> Crash /\ r <> Hang /\ py_spec a c r a' /\ py_inv s' a' /\ Q s' r a'.
Lemma gets_goes Q c : gets Q c -> goes c.
Proof using. intros (s' & r & a' & H1 & H2 & H3 & H4 & H5 & _). exists s', r, a'. auto. Qed.
Lemma gets_ret (Q : pyst -> pyres -> apkg -> Prop) c r : py_step sha s c = (s, r) -> r <> Crash -> r <> Hang -> py_spec a c r a -> Q s r a -> gets Q c.
Proof using Iv. intros. exists s, r, a. auto 10. Qed.
Lemma goes_ret c r : py_step sha s c = (s, r) -> r <> Crash -> r <> Hang -> py_spec a c r a -> goes c.
Proof using Iv. intros. exists s, r, a. auto. Qed.
Lemma goes_new c x a1 s1 : py_inv s1 a1 -> obj_ok x -> py_step sha s c = alloc s1 x ->
  py_spec a c (fst (a_new a1 x)) (snd (a_new a1 x)) -> goes c.
Proof using.
  intros I1 Hx E S. destruct (alloc_ok s1 a1 x I1 Hx) as (s' & E' & I'). rewrite E' in E.
  exists s', (fst (a_new a1 x)), (snd (a_new a1 x)). split; [exact E|]. split; [cbn; discriminate|]. split; [cbn; discriminate|]. auto.
Qed.
Lemma goes_news c xs : Forall obj_ok xs -> py_step sha s c = alloc_list s xs ->
  py_spec a c (fst (a_news a xs)) (snd (a_news a xs)) -> goes c.
Proof using Iv.
  intros Hx E S. destruct (alloc_list_ok s a xs Iv Hx) as (s' & E' & I'). rewrite E' in E.
  exists s', (fst (a_news a xs)), (snd (a_news a xs)). split; [exact E|]. split; [cbn; discriminate|]. split; [cbn; discriminate|]. auto.
Qed.
Let h := st_header s.
Let Hh : hinv h a := iv_h _ _ Iv.

(* ---- lookups ---- *)
Lemma step_get_part id : py_ok a (KGetPart id) -> goes (KGetPart id).
Proof using Iv Hh.
  intros Ok. cbn [py_ok] in Ok. pose proof (found_part h a (id mod 2^32) Hh Ok) as F. assert (E : py_step sha s (KGetPart id) = py_get_part s id) by reflexivity.
  unfold py_get_part in E. change (u32 id) with (id mod 2^32) in E. fold h in E.
  destruct (file_split (id mod 2^32) (a_files a)) as [[[x g] y]|] eqn:Ef.
  - destruct F as (q & F & _). rewrite F in E. eapply goes_new; [exact Iv| |exact E|].
    + exact Ok.
    + cbn [py_spec]. rewrite Ef. symmetry. apply surjective_pairing.
  - rewrite F in E. apply goes_ret with (r := Exc XKey); try discriminate; [exact E|]. cbn [py_spec]. now rewrite Ef.
Qed.
Lemma step_get_meta id ref : py_ok a (KGetMeta id ref) -> goes (KGetMeta id ref).
Proof using Iv Hh.
  intros Ok. cbn [py_ok] in Ok. pose proof (found_meta h a (id mod 2^32) (ref mod 2^32) Hh Ok) as F.
  assert (E : py_step sha s (KGetMeta id ref) = py_get_meta s id ref) by reflexivity.
  unfold py_get_meta in E. change (u32 id) with (id mod 2^32) in E. change (u32 ref) with (ref mod 2^32) in E. fold h in E.
  destruct (meta_split (id mod 2^32) (ref mod 2^32) (a_metas a)) as [[[x g] y]|] eqn:Ef.
  - destruct F as (q & F & _). rewrite F in E. eapply goes_new; [exact Iv| |exact E|].
    + exact Ok.
    + cbn [py_spec]. rewrite Ef. symmetry. apply surjective_pairing.
  - rewrite F in E. apply goes_ret with (r := Exc XKey); try discriminate; [exact E|]. cbn [py_spec]. now rewrite Ef.
Qed.
Lemma live_parts_eq : live_parts (h_parts h) = map (fun f => HPart (f_id f)) (a_files a).
Proof using Hh.
  destruct Hh as [(es & H & _ & F) _ _ _ _ _ _]. pose proof (ho_table _ _ H) as T. pose proof (ho_nonzero _ _ H) as N.
  unfold headed in T. cbn [pk_header] in T. rewrite T. clear H T. generalize (32 - length es)%nat.
  induction F as [|f e fs es (_ & Q & _) F IH]; intros n; cbn [map app live_parts].
  - destruct n; reflexivity.
  - inversion N; subst. destruct (Z.eqb_spec (p_id (fst e)) 0); [contradiction|]. rewrite IH by auto. now rewrite Q.
Qed.
Lemma live_metas_eq : live_metas (h_meta h) = map (fun e => HMeta (e_id e) (e_ref e)) (a_metas a).
Proof using Hh.
  pose proof (hi_metas _ _ Hh) as M. apply metas_are_iff in M as (_ & _ & _ & N & L & _). revert N.
  cut (forall (l : list mentry) slots off, Forall (fun e => e_id e <> 0) l -> layout off slots l ->
    live_metas slots = map (fun e => HMeta (e_id e) (e_ref e)) l).
  { intros X N. eapply X; eauto. }
  clear L. induction l as [|e l IH]; intros slots off N L; cbn [map].
  - destruct slots as [|m slots]; [reflexivity|]. cbn [live_metas]. cbn [layout] in L. inversion L; subst.
    replace (m_id m =? 0) with true by lia. reflexivity.
  - destruct slots as [|m slots]; cbn [layout] in L; [contradiction|]. destruct L as (E1 & E2 & _ & _ & L). inversion N; subst.
    cbn [live_metas]. rewrite E1, E2. destruct (Z.eqb_spec (e_id e) 0); [contradiction|]. f_equal. eapply IH; eauto.
Qed.
Lemma step_parts : goes KParts.
Proof using Iv Hh.
  apply goes_news with (xs := map (fun f => HPart (f_id f)) (a_files a)).
  - destruct Hh as [(es & H & _ & F) _ _ _ _ _ _]. pose proof (ho_nonzero _ _ H) as N. apply Forall_map.
    clear H. induction F as [|f e fs es (_ & Q & _) F IH]; constructor; inversion N; subst; auto. cbn. congruence.
  - cbn [py_step]. fold h. now rewrite live_parts_eq.
  - cbn [py_spec]. symmetry. apply surjective_pairing.
Qed.
Lemma step_metas : goes KMetas.
Proof using Iv Hh.
  apply goes_news with (xs := map (fun e => HMeta (e_id e) (e_ref e)) (a_metas a)).
  - apply Forall_map. pose proof (hi_metas _ _ Hh) as (_ & _ & _ & _ & N & _). exact N.
  - cbn [py_step]. fold h. now rewrite live_metas_eq.
  - cbn [py_spec]. symmetry. apply surjective_pairing.
Qed.
(* ---- plain getters ---- *)
Lemma step_get x : goes (KGet x).
Proof using Iv Hh.
  apply goes_ret with (r := Val (VInt (a_get a x))); try discriminate; [|reflexivity].
  cbn [py_step]. fold h. now rewrite (hi_attr _ _ Hh).
Qed.
Lemma step_signature : goes KSignature.
Proof using Iv Hh.
  destruct (hi_sig _ _ Hh) as (S1 & S2 & S3).
  apply goes_ret with (r := Val (VBytes (a_sig a))); try discriminate; [|reflexivity].
  cbn [py_step]. unfold py_signature. fold h. rewrite S2. destruct (Z.gtb_spec (zlen (a_sig a)) 512); [lia|].
  rewrite slice_0. unfold bytes in *. now rewrite S3.
Qed.
Lemma step_sizes : goes KSize /\ goes KInstalledSize.
Proof using Iv Hh.
  destruct Hh as [(es & H & _ & F) P _ _ _ _ _]. destruct (sizes_general _ _ H) as (A & B & C).
  pose proof (hinv_bound _ _ Hh) as Bd. pose proof (body_eq _ _ F) as Eb. unfold stored_bytes in Bd.
  assert (Es : fold_right (fun (e : parth * bytes) acc => data_size (fst e) + acc) 0 es = zlen (concat (map f_data (a_files a))) /\
     zlen (concat (map f_data (a_files a))) <= zlen (body (a_files a))).
  { clear - F P. induction F as [|f e fs es (Q1 & Q2 & Q3 & Q4 & _) F IH]; [split; [reflexivity|cbn; lia]|].
    inversion P; subst. destruct (IH ltac:(auto)) as [E L]. unfold body in *. cbn [fold_right map concat].
    rewrite !zlen_app, E. unfold data_size. rewrite Q3, H1, Q4. split; [reflexivity|].
    assert (zlen (f_data f) <= zlen (file_stored f)).
    { unfold file_stored. rewrite zlen_app. pose proof (zlen_nonneg (zeros (padding (zlen (f_data f))))). lia. }
    lia. }
  destruct Es as [Es Le]. pose proof (zlen_nonneg (concat (map f_data (a_files a)))) as P1.
  assert (X1 : pkg_size (py_pkg (st_obj s)) = 4096 + zlen (concat (map f_data (a_files a)))).
  { unfold pkg_size in *. unfold headed in A. cbn [pk_header] in A. rewrite <- Es. exact A. }
  assert (X2 : pkg_installed_size (py_pkg (st_obj s)) = zlen (body (a_files a))).
  { unfold pkg_installed_size in *. unfold headed in B. cbn [pk_header] in B. rewrite <- Eb. apply B. eapply plain_of; eauto. }
  unfold body, bytes in *. split.
  - apply goes_ret with (r := Val (VInt (4096 + zlen (concat (map f_data (a_files a)))))); try discriminate; [|reflexivity].
    cbn [py_step]. rewrite X1, s64_small; [reflexivity|]. lia.
  - apply goes_ret with (r := Val (VInt (stored_bytes (a_files a)))); try discriminate; [|reflexivity].
    cbn [py_step]. rewrite X2, s64_small; [reflexivity|]. pose proof (zlen_nonneg (concat (map file_stored (a_files a)))). lia.
Qed.
(* ---- objects ---- *)
Lemma obj_at k x : nth_error (a_objs a) k = Some x -> obj_ok x.
Proof using Iv. intros E. pose proof (iv_ok _ _ Iv) as F. rewrite Forall_forall in F. apply F. eapply nth_error_In; eauto. Qed.
Lemma on_any_eq k f : on_any s k f = match nth_error (a_objs a) k with Some x => f x | None => (s, Exc XAttribute) end.
Proof using Iv. unfold on_any. now rewrite (iv_objs _ _ Iv). Qed.
Lemma on_meta_eq k f : on_meta s k f = match nth_error (a_objs a) k with Some (HMeta id ref) => f id ref | _ => (s, Exc XAttribute) end.
Proof using Iv. unfold on_meta. now rewrite (iv_objs _ _ Iv). Qed.
Lemma on_part_eq k f : on_part s k f = match nth_error (a_objs a) k with Some (HPart id) => f id | _ => (s, Exc XAttribute) end.
Proof using Iv. unfold on_part. now rewrite (iv_objs _ _ Iv). Qed.
Ltac ret := eapply goes_ret; [eassumption|discriminate|discriminate|].
Ltac spec Eo := cbn [py_spec]; rewrite ?Eo; cbv beta iota.
Lemma step_id k : goes (KId k).
Proof using Iv.
  assert (E : py_step sha s (KId k) = on_any s k (fun x => (s, Val (VInt match x with HMeta id _ => id | HPart id => id end)))) by reflexivity.
  rewrite on_any_eq in E. destruct (nth_error (a_objs a) k) as [[id ref|id]|] eqn:Eo; ret; spec Eo; reflexivity.
Qed.
Lemma step_ref k : goes (KRef k).
Proof using Iv.
  assert (E : py_step sha s (KRef k) = on_meta s k (fun _ ref => (s, Val (VInt ref)))) by reflexivity.
  rewrite on_meta_eq in E. destruct (nth_error (a_objs a) k) as [[id ref|id]|] eqn:Eo; ret; spec Eo; reflexivity.
Qed.
Lemma part_size_of g q : p_flags q = f_flags g -> Z.testbit (f_flags g) 1 = false -> p_size q = zlen (f_data g) ->
  p_pad_bytes q = padding (zlen (f_data g)) -> zlen (file_stored g) < 2^63 -> part_size q = zlen (file_stored g) /\ part_size_wo_pad q = zlen (f_data g).
Proof using.
  intros Q1 Q2 Q3 Q4 B. unfold part_size, part_size_wo_pad. rewrite has_flag_transport, Q1, Q2, Q3, Q4.
  unfold file_stored in *. rewrite zlen_app, zlen_zeros in *. pose proof (padding_range (zlen (f_data g))). pose proof (zlen_nonneg (f_data g)).
  split; [|reflexivity]. unfold u64. rewrite Z.mod_small; lia.
Qed.
Lemma stored_split x g y : stored_bytes (x ++ g :: y) = stored_bytes x + zlen (file_stored g) + stored_bytes y.
Proof using. unfold stored_bytes. rewrite map_app, concat_app. cbn [map concat]. rewrite !zlen_app. lia. Qed.
Lemma stored_nonneg x : 0 <= stored_bytes x.
Proof using. unfold stored_bytes. apply zlen_nonneg. Qed.
(* the part behind an object *)
Lemma part_at k id : nth_error (a_objs a) k = Some (HPart id) -> match file_split id (a_files a) with
  | Some (x, g, y) => exists q, get_part h id = Ok (length x) /\ nth_error (h_parts h) (length x) = Some q /\ p_id q = id /\
      has_flag q FLAG_TRANSPORT = false /\ part_size q = zlen (file_stored g) /\ part_size_wo_pad q = zlen (f_data g) /\
      part_offset h q = 4096 + stored_bytes x /\ a_files a = x ++ g :: y /\ zlen (file_stored g) < 2^63
  | None => get_part h id = Err E_NOT_FOUND end.
Proof using Hh Iv.
  intros E. pose proof (obj_at _ _ E) as Hid. cbn [obj_ok] in Hid. pose proof (found_part h a id Hh Hid) as F.
  pose proof (file_split_spec id (a_files a)) as S. destruct (file_split id (a_files a)) as [[[x g] y]|]; auto.
  destruct F as (q & F1 & F2 & F3 & F4 & F5 & F6 & F7 & F8). destruct S as (S & _).
  pose proof (hinv_bound _ _ Hh) as B. rewrite S, stored_split in B. pose proof (stored_nonneg x). pose proof (stored_nonneg y).
  destruct (part_size_of g q F4 F5 F6 F7 ltac:(lia)) as [P1 P2].
  exists q. rewrite has_flag_transport, F4. repeat (split; [auto; lia|]). lia.
Qed.
Lemma meta_at k id ref : nth_error (a_objs a) k = Some (HMeta id ref) -> match meta_split id ref (a_metas a) with
  | Some (x, v, y) => exists m, get_meta h id ref = Ok (length x) /\ nth_error (h_meta h) (length x) = Some m /\
      m_id m = id /\ m_ref m = ref /\ m_size m = zlen v /\ m_offset m = meta_end x /\
      meta_end x + zlen v <= 1920 /\ slice (meta_end x) (zlen v) (h_metadata h) = v
  | None => get_meta h id ref = Err E_NOT_FOUND end.
Proof using Hh Iv. intros E. pose proof (obj_at _ _ E) as Hid. exact (found_meta h a id ref Hh Hid). Qed.

Lemma step_offset k : goes (KOffset k).
Proof using Hh Iv.
  assert (E : py_step sha s (KOffset k) = on_part s k (fun id => (s, part_attr s id (fun h p => VInt (part_offset h p))))) by reflexivity.
  rewrite on_part_eq in E. destruct (nth_error (a_objs a) k) as [[id ref|id]|] eqn:Eo; try (ret; spec Eo; reflexivity).
  pose proof (part_at k id Eo) as P. unfold part_attr in E. fold h in E.
  destruct (file_split id (a_files a)) as [[[x g] y]|] eqn:Ef.
  - destruct P as (q & P1 & P2 & P3 & P4 & P5 & P6 & P7 & P8). rewrite P1, P2, P7 in E. ret. spec Eo. rewrite Ef. reflexivity.
  - rewrite P in E. ret. spec Eo. rewrite Ef. reflexivity.
Qed.
Lemma step_encoded k : goes (KEncoded k).
Proof using Hh Iv.
  assert (E : py_step sha s (KEncoded k) = on_part s k (fun id => (s, part_attr s id (fun _ p => VBool (has_flag p FLAG_TRANSPORT))))) by reflexivity.
  rewrite on_part_eq in E. destruct (nth_error (a_objs a) k) as [[id ref|id]|] eqn:Eo; try (ret; spec Eo; reflexivity).
  pose proof (part_at k id Eo) as P. unfold part_attr in E. fold h in E.
  destruct (file_split id (a_files a)) as [[[x g] y]|] eqn:Ef.
  - destruct P as (q & P1 & P2 & P3 & P4 & P5 & P6 & P7 & P8). rewrite P1, P2, P4 in E. ret. spec Eo. rewrite Ef. reflexivity.
  - rewrite P in E. ret. spec Eo. rewrite Ef. reflexivity.
Qed.
Lemma step_obj_size k : goes (KObjSize k).
Proof using Hh Iv.
  assert (E : py_step sha s (KObjSize k) = on_any s k (fun x => (s,
        match x with
        | HMeta id ref =>
            match get_meta h id ref with
            | Ok i => match nth_error (h_meta h) i with Some m => Val (VInt (m_size m)) | None => Crash end
            | _ => Exc XKey
            end
        | HPart id => part_attr s id (fun _ p => VInt (s64 (part_size p)))
        end))) by reflexivity.
  rewrite on_any_eq in E. destruct (nth_error (a_objs a) k) as [[id ref|id]|] eqn:Eo; try (ret; spec Eo; reflexivity).
  - pose proof (meta_at k id ref Eo) as P. destruct (meta_split id ref (a_metas a)) as [[[x v] y]|] eqn:Ef.
    + destruct P as (m & P1 & P2 & P3 & P4 & P5 & _). rewrite P1, P2, P5 in E. ret. spec Eo. rewrite Ef. reflexivity.
    + rewrite P in E. ret. spec Eo. rewrite Ef. reflexivity.
  - pose proof (part_at k id Eo) as P. unfold part_attr in E. fold h in E.
    destruct (file_split id (a_files a)) as [[[x g] y]|] eqn:Ef.
    + destruct P as (q & P1 & P2 & P3 & P4 & P5 & P6 & P7 & P8 & P9). rewrite P1, P2, P5 in E.
      rewrite s64_small in E by (split; [apply zlen_nonneg|exact P9]). ret. spec Eo. rewrite Ef. reflexivity.
    + rewrite P in E. ret. spec Eo. rewrite Ef. reflexivity.
Qed.
Lemma step_raw k : goes (KRaw k).
Proof using Hh Iv.
  assert (E : py_step sha s (KRaw k) = on_meta s k (fun id ref => (s, py_raw s id ref))) by reflexivity.
  rewrite on_meta_eq in E. destruct (nth_error (a_objs a) k) as [[id ref|id]|] eqn:Eo; try (ret; spec Eo; reflexivity).
  pose proof (meta_at k id ref Eo) as P. unfold py_raw in E. fold h in E.
  destruct (meta_split id ref (a_metas a)) as [[[x v] y]|] eqn:Ef.
  - destruct P as (m & P1 & P2 & P3 & P4 & P5 & P6 & P7 & P8). rewrite P1, P2 in E. unfold meta_read in E. rewrite P2, P5, P6, Z.add_0_r in E.
    unfold METADATA_BYTES in E. destruct (Z.gtb_spec (meta_end x + zlen v) 1920); [lia|]. unfold bytes in *. rewrite P8 in E.
    ret. spec Eo. rewrite Ef. reflexivity.
  - rewrite P in E. ret. spec Eo. rewrite Ef. reflexivity.
Qed.
Lemma strlen_text : forall (v r : bytes), In 0 v -> exists n, strlen (v ++ r) = Some n /\ n <= zlen v /\ text v = ztake n v /\ 0 <= n.
Proof using.
  induction v as [|c v IH]; intros r; [contradiction|]. intros Hin. cbn [app strlen text].
  destruct (Z.eqb_spec c 0) as [->|Hc].
  - exists 0. pose proof (zlen_nonneg (0 :: v)). repeat split; auto; lia.
  - destruct Hin as [?|Hin]; [contradiction|]. destruct (IH r Hin) as (n & E & L & T & N). rewrite E. exists (n + 1).
    rewrite zlen_cons. repeat split; try lia. rewrite T. unfold ztake. replace (Z.to_nat (n + 1)) with (S (Z.to_nat n)) by lia. reflexivity.
Qed.
Lemma step_string k : py_ok a (KString k) -> goes (KString k).
Proof using Hh Iv.
  intros Ok. cbn [py_ok] in Ok.
  assert (E : py_step sha s (KString k) = on_meta s k (fun id ref => (s, py_string s id ref))) by reflexivity.
  rewrite on_meta_eq in E. destruct (nth_error (a_objs a) k) as [[id ref|id]|] eqn:Eo; try (ret; spec Eo; reflexivity).
  pose proof (meta_at k id ref Eo) as P. unfold py_string in E. fold h in E.
  destruct (meta_split id ref (a_metas a)) as [[[x v] y]|] eqn:Ef.
  - destruct P as (m & P1 & P2 & P3 & P4 & P5 & P6 & P7 & P8). rewrite P1, P2, P5, P6 in E.
    specialize (Ok id ref x v y eq_refl Ef).
    assert (D : zdrop (meta_end x) (h_metadata h) = v ++ zdrop (meta_end x + zlen v) (h_metadata h)).
    { pose proof (meta_end_nonneg x). pose proof (zlen_nonneg v). rewrite <- P8 at 1. unfold slice. rewrite (Z.add_comm (meta_end x)), <- zdrop_zdrop by lia. symmetry. apply ztake_zdrop. }
    rewrite D in E. destruct (strlen_text v (zdrop (meta_end x + zlen v) (h_metadata h)) Ok) as (n & S1 & S2 & S3 & S4). rewrite S1 in E.
    replace (Z.min n (zlen v)) with n in E by lia.
    assert (T : slice (meta_end x) n (h_metadata h) = text v).
    { unfold slice. rewrite D, ztake_app_l by lia. congruence. }
    cbv zeta in E. rewrite T in E. unfold ascii in E. destruct (forallb (fun c => c <? 128) (text v)) eqn:Ea; ret; spec Eo; rewrite Ef, Ea; reflexivity.
  - rewrite P in E. ret. spec Eo. rewrite Ef. reflexivity.
Qed.
Lemma step_read k : goes (KRead k).
Proof using Hh Iv.
  assert (E : py_step sha s (KRead k) = on_part s k (fun id => (s, py_read s id))) by reflexivity.
  rewrite on_part_eq in E. destruct (nth_error (a_objs a) k) as [[id ref|id]|] eqn:Eo; try (ret; spec Eo; reflexivity).
  pose proof (part_at k id Eo) as P. unfold py_read in E. fold h in E.
  destruct (file_split id (a_files a)) as [[[x g] y]|] eqn:Ef.
  - destruct P as (q & P1 & P2 & P3 & P4 & P5 & P6 & P7 & P8 & P9). rewrite P1, P2 in E. cbv zeta in E. rewrite P6, P7 in E.
    pose proof (zlen_nonneg (f_data g)) as Hd. pose proof (stored_nonneg x) as Hx.
    assert (Hs : zlen (f_data g) <= zlen (file_stored g)).
    { unfold file_stored. rewrite zlen_app. pose proof (zlen_nonneg (zeros (padding (zlen (f_data g))))). lia. }
    destruct (Z.geb_spec (zlen (f_data g)) 9223372036854775808); [change (2^63) with 9223372036854775808 in P9; lia|].
    rewrite (iv_fp _ _ Iv) in E. destruct (Z.ltb_spec (4096 + stored_bytes x) 0); [lia|].
    destruct (iv_file _ _ Iv) as (z & Z1 & Z2 & Z3).
    assert (R : fread_at (st_file s) (4096 + stored_bytes x) (zlen (f_data g)) = f_data g).
    { rewrite Z3, P8. unfold body. rewrite map_app, concat_app. cbn [map concat]. unfold file_stored at 2. rewrite <- !app_assoc.
      rewrite (app_assoc (enc_header _)). unfold fread_at. apply slice_app_exact; [|reflexivity].
      rewrite zlen_app, zlen_enc_header by (apply wf_with_payload_hash; auto; exact (hi_wf _ _ Hh)). unfold stored_bytes. lia. }
    rewrite R in E. rewrite Z.eqb_refl, andb_true_r in E.
    destruct (f_data g) as [|c d] eqn:Ed.
    + cbn in E. ret. spec Eo. rewrite Ef, Ed. reflexivity.
    + replace (0 <? zlen (c :: d)) with true in E by (rewrite zlen_cons; pose proof (zlen_nonneg d); lia).
      ret. spec Eo. rewrite Ef, Ed. reflexivity.
  - rewrite P in E. ret. spec Eo. rewrite Ef. reflexivity.
Qed.
(* ---- setting attributes ---- *)
Lemma as_uint_eq v : as_uint v = match int_arg v with inl e => inl e | inr n => inr (n mod 2^32) end.
Proof using. destruct v; try reflexivity. unfold as_uint, int_arg. change (2^64) with 18446744073709551616. destruct (_ || _); reflexivity. Qed.
Lemma meta_arg_eq v : meta_arg v = data_arg v.
Proof using. destruct v; reflexivity. Qed.
Lemma goes_store c h' a' v : hinv h' a' -> body (a_files a') = body (a_files a) -> a_objs a' = a_objs a ->
  (forall s', store s h' v = (s', Val v) -> py_step sha s c = (s', Val v)) -> py_spec a c (Val v) a' -> goes c.
Proof using Iv.
  intros H B E St S. destruct (store_ok0 s a h' a' v Iv H B E) as (s' & Es & I' & _).
  exists s', (Val v), a'. split; [auto|]. split; [discriminate|]. split; [discriminate|]. auto.
Qed.
Lemma step_set x v : py_ok a (KSet x v) -> goes (KSet x v).
Proof using Hh Iv.
  intros Ok. cbn [py_ok] in Ok. unfold not_del in Ok.
  assert (E : py_step sha s (KSet x v) = match as_uint v with inl e => (s, Exc e) | inr n => store s (set_attr h x n) VNone end).
  { cbn [py_step]. unfold py_set_attr. destruct v; auto. contradiction. }
  rewrite as_uint_eq in E. destruct (int_arg v) as [e|n] eqn:Ev.
  - ret. cbn [py_spec]. rewrite Ev. reflexivity.
  - eapply goes_store with (h' := set_attr h x (n mod 2^32)) (a' := a_set a x n) (v := VNone).
    + now apply hinv_attr.
    + destruct x; reflexivity.
    + destruct x; reflexivity.
    + intros s' Es. congruence.
    + cbn [py_spec]. rewrite Ev. reflexivity.
Qed.
Lemma step_set_signature v : py_ok a (KSetSignature v) -> goes (KSetSignature v).
Proof using Hh Iv.
  intros Ok. cbn [py_ok] in Ok.
  assert (K : forall (b : bytes) (c : bool), zlen b <= 512 -> bytes_ok b ->
    (py_spec a (KSetSignature v) (Val VNone) (a_set_sig a b)) ->
    py_step sha s (KSetSignature v) = (if zlen b >? 512 then (s, Crash)
    else
      match store s (with_signature h (splice 0 b (zeros 512)) (u16 (zlen b))) VNone with
      | (s', Exc XIO) => (s', if c then Val VNone else Exc XError)
      | x => x
      end) -> goes (KSetSignature v)).
  { intros b c L B Sp E. destruct (Z.gtb_spec (zlen b) 512); [lia|].
    eapply goes_store with (h' := with_signature h (splice 0 b (zeros 512)) (u16 (zlen b))) (a' := a_set_sig a b) (v := VNone).
    - now apply hinv_sig.
    - reflexivity.
    - reflexivity.
    - intros s' Es. rewrite Es in E. exact E.
    - exact Sp. }
  destruct v as [n|b|cs| | |].
  - apply goes_ret with (r := Exc XType); try discriminate; reflexivity.
  - destruct (Ok b eq_refl) as [B L]. apply (K b false L B); reflexivity.
  - apply goes_ret with (r := Exc XType); try discriminate; reflexivity.
  - apply (K [] true); [cbn; lia|constructor|reflexivity|reflexivity].
  - apply goes_ret with (r := Exc XType); try discriminate; reflexivity.
  - apply (K [] true); [cbn; lia|constructor|reflexivity|reflexivity].
Qed.
(* ---- digest ---- *)
Definition digest_post (s' : pyst) (r : pyres) (a' : apkg) : Prop :=
  st_file s' = st_file s /\ (hash_supported (a_kind a') = true -> current s' a').
Lemma step_digest_strong : gets digest_post KDigest.
Proof using Hh Iv G.
  destruct (iv_file _ _ Iv) as (z & Z1 & Z2 & Z3).
  assert (E : py_step sha s KDigest = py_digest sha s) by reflexivity. unfold py_digest, pkg_update_hash in E.
  change (pk_header (py_pkg (st_obj s))) with h in E. change (pk_file (py_pkg (st_obj s))) with (st_file s) in E.
  pose proof (hi_attr _ _ Hh HashKind) as Ek. cbn [get_attr a_get] in Ek.
  destruct (hi_es _ _ Hh) as (es & H & O & F). pose proof (hi_wf _ _ Hh) as W.
  assert (T : h_parts h = table (map fst es)) by exact (holds_table _ _ H).
  assert (Wp : Forall wf_part (map fst es)) by exact (wf_parts_app _ _ _ (ho_wf _ _ H) (ho_table _ _ H)).
  pose proof (hinv_bound _ _ Hh) as Bd. unfold stored_bytes in Bd. fold (body (a_files a)) in Bd. rewrite <- (body_eq _ _ F) in Bd.
  assert (Sz : sizes_ok (h_parts h)) by (rewrite T; apply sizes_of; [apply (ho_sizes _ _ H)|exact Wp|lia]).
  assert (Wz : wf_header (HeaderModel.with_payload_hash h z)) by (apply wf_with_payload_hash; auto).
  destruct (payload_of_contents (st_file s) (enc_header (HeaderModel.with_payload_hash h z)) es []) as [P1 P2].
  { now apply zlen_enc_header. }
  { rewrite app_nil_r, (body_eq _ _ F). exact Z3. }
  { apply (ho_sizes _ _ H). }
  { apply (ho_nonzero _ _ H). }
  rewrite <- T in P1, P2.
  destruct (payload_hash_spec sha h (st_file s) HDR_SIZE 64 Sz ltac:(unfold HDR_SIZE; lia)) as [U V].
  destruct (hash_supported (h_hash_kind h)) eqn:Es.
  - destruct (V eq_refl) as [_ V2]. change HDR_SIZE with 4096 in *. destruct (V2 P1) as [_ V3].
    pose proof (digest_len_le (h_hash_kind h)) as Dle. rewrite V3 in E by lia.
    set (d := sha (h_hash_kind h) (hashed_payload (st_file s) 4096 (h_parts h))) in *.
    destruct (G (h_hash_kind h) (hashed_payload (st_file s) 4096 (h_parts h)) Es) as [D1 D2]. fold d in D1, D2.
    set (y := splice 0 d (h_payload_hash h)) in *. destruct (wf_payload_hash h W) as [L1 L2].
    assert (Y1 : zlen y = 64) by (unfold y; rewrite zlen_splice; lia).
    assert (Y2 : bytes_ok y) by (unfold y; apply bytes_ok_splice; auto).
    assert (Wy : wf_header (HeaderModel.with_payload_hash h y)) by (apply wf_with_payload_hash; auto).
    change (VerifyModel.with_payload_hash h y) with (HeaderModel.with_payload_hash h y) in E.
    rewrite (header_hash_spec sha (HeaderModel.with_payload_hash h y) 128 Wy) in E; [|exact Es|change (h_hash_kind (HeaderModel.with_payload_hash h y)) with (h_hash_kind h); lia].
    rewrite (iv_fp _ _ Iv) in E. cbv beta iota in E.
    set (dg := sha (h_hash_kind (HeaderModel.with_payload_hash h y)) (enc_header (unsigned (HeaderModel.with_payload_hash h y)))) in *.
    exists (with_pkg s (mkPkg (HeaderModel.with_payload_hash h y) (st_file s))), (Val (VBytes dg)), a.
    split; [exact E|]. split; [discriminate|]. split; [discriminate|]. split; [|split; [|split; [reflexivity|]]].
    + cbn [py_spec]. rewrite <- Ek, Es. exists dg. split; [|reflexivity].
      destruct (G (h_hash_kind h) (enc_header (unsigned (HeaderModel.with_payload_hash h y))) Es) as [D3 _]. exact D3.
    + destruct Iv as [I1 I2 I3 I4 I5]. constructor; auto.
      now apply (hinv_hash h a y).
    + intros _. unfold current. rewrite <- Ek. change (h_payload_hash (st_header (with_pkg s (mkPkg (HeaderModel.with_payload_hash h y) (st_file s))))) with y.
      rewrite <- (files_covered_eq _ _ F), <- P2. fold d. unfold y. rewrite <- D1. apply slice_splice_same; lia.
  - rewrite (U eq_refl) in E.
    exists (with_pkg s (py_pkg (st_obj s))), (Val VNone), a. split; [exact E|]. split; [discriminate|]. split; [discriminate|]. split; [|split; [|split; [reflexivity|rewrite <- Ek, Es; discriminate]]].
    + cbn [py_spec]. rewrite <- Ek, Es. reflexivity.
    + unfold with_pkg. replace (mkSt (mkPy (py_fp (st_obj s)) (py_pkg (st_obj s))) (st_handles s)) with s; [exact Iv|].
      clear. destruct s as [[? ?] ?]. reflexivity.
Qed.
Lemma step_digest : goes KDigest.
Proof using Hh Iv G. exact (gets_goes _ _ step_digest_strong). Qed.
(* ---- metadata ---- *)
Lemma data_arg_ok v d : (forall b, v = ABytes b -> bytes_ok b) -> (forall cs, v = AStr cs -> Forall (fun c => 0 <= c) cs) ->
  data_arg v = inr d -> bytes_ok d.
Proof using.
  intros H1 H2. destruct v as [n|b|cs| | |]; cbn [data_arg]; try discriminate.
  - intros E. injection E as <-. now apply H1.
  - destruct (forallb (fun c => c <? 128) cs) eqn:Ea; [|discriminate]. intros E. injection E as <-.
    apply bytes_ok_app. split; [|constructor; [unfold byte_ok; lia|constructor]].
    specialize (H2 cs eq_refl). rewrite forallb_forall in Ea. rewrite Forall_forall in H2. apply Forall_forall. intros x Hx.
    specialize (Ea x Hx). specialize (H2 x Hx). cbn beta in *. unfold byte_ok. lia.
Qed.
Lemma wf_list_upd_meta i m : nth_error (h_meta h) i = Some m -> forall id size off ref, 0 <= id < 2^32 -> 0 <= ref < 2^32 -> 0 <= size < 2^16 -> 0 <= off < 2^16 ->
  Forall wf_meta (list_upd i (mkMeta id size off ref (m_pad m)) (h_meta h)).
Proof using Hh Iv.
  intros Hm id size off ref H1 H2 H3 H4. pose proof (hi_wf _ _ Hh) as W. destruct (wf_metas h W) as [_ Wm].
  apply Forall_list_upd; [exact Wm|]. rewrite Forall_forall in Wm. destruct (Wm m (nth_error_In _ _ Hm)) as (_ & _ & _ & _ & W5 & W6).
  unfold wf_meta. cbn [m_id m_size m_offset m_ref m_pad]. auto 10.
Qed.
Lemma write_entry x id ref v y m (d : bytes) : a_metas a = x ++ mkEntry id ref v :: y -> nth_error (h_meta h) (length x) = Some m ->
  m_offset m = meta_end x -> zlen d <= zlen v -> bytes_ok d ->
  exists h', meta_write h (length x) 0 d = Ok h' /\ hinv h' (a_set_metas a (x ++ mkEntry id ref (splice 0 d v) :: y)).
Proof using Hh Iv.
  intros E Hm Ho Hd Bd. pose proof (hi_metas _ _ Hh) as M. rewrite E in M. pose proof (metas_are_write _ _ x id ref v y 0 d M ltac:(lia) ltac:(lia)) as M2.
  rewrite Z.add_0_r in M2. pose proof M as (Lm & Lmd & _ & _ & _ & Hn & _).
  destruct (Hn (length x) (mkEntry id ref v)) as (B & _).
  { rewrite nth_error_app2, Nat.sub_diag by lia. reflexivity. }
  rewrite firstn_app, Nat.sub_diag, firstn_all, firstn_O, app_nil_r in B. cbn [e_val] in B.
  unfold meta_write. rewrite Hm, Ho, Z.add_0_r. unfold METADATA_BYTES. destruct (Z.gtb_spec (meta_end x + zlen d) 1920); [lia|].
  eexists. split; [reflexivity|]. pose proof (hi_wf _ _ Hh) as W. pose proof (meta_end_nonneg x). pose proof (zlen_nonneg d).
  eapply hinv_metas; eauto.
  - rewrite only_metadata.
    apply wf_with_metas; auto; try apply (wf_metas h W).
    + rewrite zlen_splice; lia.
    + apply bytes_ok_splice; auto. apply (wf_metadata h W).
  - exact (hi_ghost _ _ Hh).
Qed.
Lemma step_set_raw k v : py_ok a (KSetRaw k v) -> goes (KSetRaw k v).
Proof using Hh Iv.
  intros Ok. cbn [py_ok] in Ok. destruct Ok as (O1 & O2 & O3). unfold not_del in O1.
  assert (E : py_step sha s (KSetRaw k v) = on_meta s k (fun id ref => py_set_raw s id ref v)) by reflexivity.
  rewrite on_meta_eq in E. destruct (nth_error (a_objs a) k) as [[id ref|id]|] eqn:Eo; try (ret; spec Eo; reflexivity).
  pose proof (meta_at k id ref Eo) as P. unfold py_set_raw in E. fold h in E.
  pose proof (meta_split_spec id ref (a_metas a)) as Sp.
  destruct (meta_split id ref (a_metas a)) as [[[x w] y]|] eqn:Ef.
  - destruct P as (m & P1 & P2 & P3 & P4 & P5 & P6 & P7 & P8). rewrite P1, P2 in E.
    assert (E' : py_step sha s (KSetRaw k v) = match data_arg v with
          | inl e => (s, Exc e)
          | inr d =>
                  if zlen d <=? m_size m then
                    match meta_write h (length x) 0 (d ++ zeros (m_size m - zlen d)) with
                    | Ok h => store s h VNone
                    | _ => (s, Crash)
                    end
                  else (s, Exc XValue) end).
    { rewrite E. destruct v; try reflexivity. contradiction. }
    clear E. rename E' into E. destruct (data_arg v) as [e|d] eqn:Ed.
    + ret. spec Eo. rewrite Ef, Ed. reflexivity.
    + rewrite P5 in E. destruct (Z.leb_spec (zlen d) (zlen w)) as [Hle|Hgt].
      * pose proof (data_arg_ok v d O2 O3 Ed) as Bd. pose proof (zlen_nonneg d).
        assert (Lz : zlen (d ++ zeros (zlen w - zlen d)) = zlen w) by (rewrite zlen_app, zlen_zeros; lia).
        destruct (write_entry x id ref w y m (d ++ zeros (zlen w - zlen d)) Sp P2 P6) as (h' & Ew & H').
        { lia. }
        { apply bytes_ok_app. split; auto. apply bytes_ok_zeros. }
        rewrite Ew in E. unfold splice in H'. rewrite ztake_0, Z.add_0_l, zdrop_all, app_nil_r in H' by lia. cbn [app] in H'.
        eapply goes_store; [exact H'|reflexivity|reflexivity| |].
        -- intros s' Es. rewrite Es in E. exact E.
        -- spec Eo. rewrite Ef, Ed. destruct (Z.leb_spec (zlen d) (zlen w)); [reflexivity|lia].
      * ret. spec Eo. rewrite Ef, Ed. destruct (Z.leb_spec (zlen d) (zlen w)); [lia|reflexivity].
  - rewrite P in E. ret. spec Eo. rewrite Ef. reflexivity.
Qed.
Lemma rekey_entry x id ref v y m id' ref' : a_metas a = x ++ mkEntry id ref v :: y -> nth_error (h_meta h) (length x) = Some m ->
  m_size m = zlen v -> m_offset m = meta_end x -> meta_end x + zlen v <= 1920 -> id' <> 0 -> 0 <= id' < 2^32 -> 0 <= ref' < 2^32 ->
  ((id', ref') = (id, ref) \/ ~ In (id', ref') (map e_key (a_metas a))) ->
  hinv (with_meta h (list_upd (length x) (mkMeta id' (m_size m) (m_offset m) ref' (m_pad m)) (h_meta h)))
    (a_set_metas a (x ++ mkEntry id' ref' v :: y)).
Proof using Hh Iv.
  intros E Hm Hs Ho Hb Hid Hr Hr' Hk. pose proof (hi_metas _ _ Hh) as M. rewrite E in M, Hk.
  pose proof (metas_are_rekey _ _ x id ref v y m id' ref' M Hm Hid Hk) as M2. pose proof (hi_wf _ _ Hh) as W.
  pose proof (meta_end_nonneg x). pose proof (zlen_nonneg v).
  eapply hinv_metas; eauto.
  - rewrite only_meta.
    apply wf_with_metas; auto; try apply (wf_metadata h W).
    + rewrite length_list_upd. apply (wf_metas h W).
    + apply wf_list_upd_meta; auto; lia.
  - cbn [h_meta with_meta]. apply Forall_list_upd; [exact (hi_ghost _ _ Hh)|]. cbn [m_id]. contradiction.
Qed.
Lemma obj_ok_upd k x : obj_ok x -> Forall obj_ok (list_upd k x (a_objs a)).
Proof using Iv. intros. apply Forall_list_upd; auto. exact (iv_ok _ _ Iv). Qed.
Lemma goes_store_obj c k x h' a1 : obj_ok x -> hinv h' a1 -> body (a_files a1) = body (a_files a) -> a_objs a1 = a_objs a ->
  py_step sha s c = store (set_handle s k x) h' VNone -> py_spec a c (Val VNone) (set_obj a1 k x) -> goes c.
Proof using Iv.
  intros Ox H B Eo E S. unfold set_handle in E. rewrite (iv_objs _ _ Iv) in E.
  destruct (store_ok s a h' (set_obj a1 k x) VNone (list_upd k x (a_objs a)) Iv) as (s' & Es & I' & _).
  - destruct H; constructor; auto.
  - exact B.
  - cbn [set_obj a_set_objs a_objs]. now rewrite Eo.
  - now apply obj_ok_upd.
  - rewrite Es in E. exists s', (Val VNone), (set_obj a1 k x). split; [exact E|]. split; [discriminate|]. split; [discriminate|]. auto.
Qed.
Lemma step_set_ref k v : py_ok a (KSetRef k v) -> goes (KSetRef k v).
Proof using Hh Iv.
  intros Ok. cbn [py_ok] in Ok. destruct Ok as (O1 & O2). unfold not_del in O1.
  assert (E : py_step sha s (KSetRef k v) = on_meta s k (fun id ref => py_set_ref s k id ref v)) by reflexivity.
  rewrite on_meta_eq in E. destruct (nth_error (a_objs a) k) as [[id ref|id]|] eqn:Eo; try (ret; spec Eo; reflexivity).
  pose proof (meta_at k id ref Eo) as P. pose proof (obj_at _ _ Eo) as Hid. cbn [obj_ok] in Hid.
  pose proof (meta_split_spec id ref (a_metas a)) as Sp.
  assert (E' : py_step sha s (KSetRef k v) = match (match v with ANone => inr 0 | _ => int_arg v end) with
      | inl e => (s, Exc e)
      | inr n =>
          match get_meta h id ref with
          | Ok i => match nth_error (h_meta h) i with
                    | Some m => store (set_handle s k (HMeta id (n mod 2^32)))
                                  (with_meta h (list_upd i (mkMeta (m_id m) (m_size m) (m_offset m) (n mod 2^32) (m_pad m)) (h_meta h))) VNone
                    | None => (s, Crash)
                    end
          | _ => (s, Exc XKey)
          end
      end).
  { rewrite E. unfold py_set_ref. fold h. rewrite as_uint_eq. destruct v; try contradiction; try reflexivity.
    destruct (int_arg (AInt n)); reflexivity. }
  clear E. rename E' into E.
  destruct (match v with ANone => inr 0 | _ => int_arg v end) as [e|n] eqn:Ev.
  { ret. spec Eo. rewrite Ev. reflexivity. }
  destruct (meta_split id ref (a_metas a)) as [[[x w] y]|] eqn:Ef.
  - destruct P as (m & P1 & P2 & P3 & P4 & P5 & P6 & P7 & P8). rewrite P1, P2, P3 in E.
    assert (Hid2 : 0 <= id < 2^32).
    { destruct (wf_metas h (hi_wf _ _ Hh)) as [_ Wm]. rewrite Forall_forall in Wm. destruct (Wm m (nth_error_In _ _ P2)) as (X & _).
      rewrite P3 in X. exact X. }
    assert (Hk : (id, n mod 2^32) = (id, ref) \/ ~ In (id, n mod 2^32) (map e_key (a_metas a))).
    { destruct (O2 n) as [O|O]; auto.
      - destruct v; try (right; exact Ev). left. injection Ev as <-. auto.
      - left. congruence. }
    eapply (goes_store_obj _ k (HMeta id (n mod 2^32))); [exact Hid| | | |exact E|].
    + apply (rekey_entry x id ref w y m id (n mod 2^32) Sp P2 P5 P6 P7 Hid Hid2 ltac:(lia) Hk).
    + reflexivity.
    + reflexivity.
    + spec Eo. rewrite Ev, Ef. reflexivity.
  - rewrite P in E. ret. spec Eo. rewrite Ev, Ef. reflexivity.
Qed.
(* ---- ids ---- *)
Lemma rename_part x g y q n : a_files a = x ++ g :: y -> nth_error (h_parts h) (length x) = Some q -> n <> 0 -> 0 <= n < 2^32 ->
  (n = f_id g \/ ~ In n (map f_id (a_files a))) ->
  hinv (with_parts h (list_upd (length x) (set_p_id q n) (h_parts h))) (a_set_files a (x ++ mkFile n (f_flags g) (f_data g) :: y)).
Proof using Hh Iv.
  intros Ef Hq Hn Hr Hk. pose proof (hi_wf _ _ Hh) as W. destruct Hh as [(es & H & O & F) P M N Mg A S].
  destruct (Forall2_split _ _ _ _ _ _ F Ef) as (b1 & [q' c] & b2 & -> & F1 & (Q1 & Q2 & Q3 & Q4 & Q5) & F2). cbn [fst snd] in *.
  assert (L : length x = length b1) by (clear - F1; induction F1; cbn [length]; congruence).
  pose proof (get_part_at _ _ _ _ _ H) as [_ G2]. unfold headed in G2. cbn [pk_header] in G2. rewrite L, G2 in Hq. injection Hq as ->.
  assert (Tb : list_upd (length x) (set_p_id q n) (h_parts h) =
     map fst (b1 ++ (set_p_id q n, c) :: b2) ++ repeat zero_part (32 - length (b1 ++ (set_p_id q n, c) :: b2))).
  { pose proof (ho_table _ _ H) as T. unfold headed in T. cbn [pk_header] in T. rewrite T, L.
    rewrite !map_app, <- !app_assoc. cbn [map fst app].
    replace (length b1) with (length (map (@fst parth bytes) b1)) at 1 by apply map_length. rewrite list_upd_middle.
    rewrite !app_length. reflexivity. }
  assert (W' : wf_header (with_parts h (list_upd (length x) (set_p_id q n) (h_parts h)))).
  { apply wf_with_parts; auto.
    - rewrite length_list_upd. apply (wf_parts h W).
    - destruct (wf_parts h W) as [_ Wp]. apply Forall_list_upd; auto. rewrite Forall_forall in Wp.
      pose proof (Wp q (nth_error_In _ _ G2)) as (X1 & X2). split; [exact Hr|exact X2]. }
  rewrite Ef in P. apply Forall_app in P as [Pa Pb]. pose proof (Forall_inv Pb) as Pg. pose proof (Forall_inv_tail Pb) as Py.
  constructor; auto.
  - exists (b1 ++ (set_p_id q n, c) :: b2). split; [|split].
    + destruct H as [H1 H2 H3 H4 H5 H6 H7 H8]. unfold headed in *. cbn [pk_header pk_file] in *.
      constructor; cbn [pk_header pk_file]; auto.
      * rewrite app_length in *. exact H2.
      * apply Forall_app in H4 as [Ha Hb]. inversion Hb; subst. apply Forall_app. split; auto.
      * rewrite map_app in *. cbn [map fst set_p_id p_id] in *. apply NoDup_remove in H5 as [ND Hx].
        pose proof (ids_of _ _ F1) as I1. pose proof (ids_of _ _ F2) as I2.
        apply NoDup_Add with (a := n) (l := map (fun e : parth * bytes => p_id (fst e)) b1 ++ map (fun e : parth * bytes => p_id (fst e)) b2); [apply Add_app|].
        split; auto. destruct Hk as [->|Hk]; [rewrite <- Q2; exact Hx|]. intros C. apply Hk. rewrite Ef, map_app. cbn [map].
        rewrite I1, I2 in C. apply in_app_or in C as [C|C]; apply in_or_app; [now left|right; now right].
      * apply Forall_app in H6 as [Ha Hb]. inversion Hb; subst. apply Forall_app. split; auto.
      * rewrite zlen_app, zlen_enc_header in * by auto. rewrite map_app in *. exact H8.
    + apply offsets_app in O as [O1 O2]. apply offsets_app. split; auto.
    + apply Forall2_app; auto. constructor; auto. unfold file_matches, file_stored in *. cbn [fst snd f_data f_id f_flags set_p_id p_id p_flags p_size p_pad_bytes]. auto.
  - apply Forall_app. split; auto.
Qed.
Lemma body_rename x g y n : body (x ++ mkFile n (f_flags g) (f_data g) :: y) = body (x ++ g :: y).
Proof using. unfold body. rewrite !map_app, !concat_app. reflexivity. Qed.
Lemma step_set_id k v : py_ok a (KSetId k v) -> goes (KSetId k v).
Proof using Hh Iv.
  intros Ok. cbn [py_ok] in Ok. destruct Ok as (O1 & O2). unfold not_del in O1.
  assert (E : py_step sha s (KSetId k v) = on_any s k (fun x => py_set_id s k x v)) by reflexivity.
  rewrite on_any_eq in E. destruct (nth_error (a_objs a) k) as [x0|] eqn:Eo; [|ret; spec Eo; reflexivity].
  unfold py_set_id in E. fold h in E.
  assert (E' : py_step sha s (KSetId k v) = match int_arg v with
      | inl e => (s, Exc e)
      | inr n =>
          match x0 with
          | HMeta id ref =>
              match get_meta h id ref with
              | Ok i => match nth_error (h_meta h) i with
                        | Some m => store (set_handle s k (HMeta (n mod 2^32) ref))
                                      (with_meta h (list_upd i (mkMeta (n mod 2^32) (m_size m) (m_offset m) (m_ref m) (m_pad m)) (h_meta h))) VNone
                        | None => (s, Crash)
                        end
              | _ => (s, Exc XKey)
              end
          | HPart id =>
              match get_part h id with
              | Ok i => match nth_error (h_parts h) i with
                        | Some p => store (set_handle s k (HPart (n mod 2^32)))
                                      (with_parts h (list_upd i (set_p_id p (n mod 2^32)) (h_parts h))) VNone
                        | None => (s, Crash)
                        end
              | _ => (s, Exc XKey)
              end
          end
      end).
  { rewrite E. rewrite as_uint_eq. destruct v; try contradiction; try reflexivity. destruct (int_arg (AInt n)); reflexivity. }
  clear E. rename E' into E.
  destruct (int_arg v) as [e|n] eqn:Ev; [destruct x0; ret; spec Eo; rewrite Ev; reflexivity|].
  destruct (O2 n eq_refl) as [On Ok]. assert (Hr : 0 <= n mod 2^32 < 2^32) by lia.
  destruct x0 as [id ref|id].
  - pose proof (meta_at k id ref Eo) as P. pose proof (meta_split_spec id ref (a_metas a)) as Sp.
    destruct (meta_split id ref (a_metas a)) as [[[x w] y]|] eqn:Ef.
    + destruct P as (m & P1 & P2 & P3 & P4 & P5 & P6 & P7 & P8). rewrite P1, P2, P4 in E.
      assert (Hk : (n mod 2^32, ref) = (id, ref) \/ ~ In (n mod 2^32, ref) (map e_key (a_metas a))).
      { destruct Ok as [O|O]; auto. left. congruence. }
      assert (Hr2 : 0 <= ref < 2^32).
      { destruct (wf_metas h (hi_wf _ _ Hh)) as [_ Wm]. rewrite Forall_forall in Wm. destruct (Wm m (nth_error_In _ _ P2)) as (_ & _ & _ & X & _).
        rewrite P4 in X. exact X. }
      eapply (goes_store_obj _ k (HMeta (n mod 2^32) ref)); [exact On| | | |exact E|].
      * apply (rekey_entry x id ref w y m (n mod 2^32) ref Sp P2 P5 P6 P7 On Hr Hr2 Hk).
      * reflexivity.
      * reflexivity.
      * spec Eo. rewrite Ev, Ef. reflexivity.
    + rewrite P in E. ret. spec Eo. rewrite Ev, Ef. reflexivity.
  - pose proof (part_at k id Eo) as P. pose proof (file_split_spec id (a_files a)) as Sp.
    destruct (file_split id (a_files a)) as [[[x g] y]|] eqn:Ef.
    + destruct P as (q & P1 & P2 & P3 & P4 & P5 & P6 & P7 & P8 & P9). rewrite P1, P2 in E. destruct Sp as (Sp & Sg & _).
      assert (Hk : n mod 2^32 = f_id g \/ ~ In (n mod 2^32) (map f_id (a_files a))) by (rewrite Sg; exact Ok).
      eapply (goes_store_obj _ k (HPart (n mod 2^32))); [exact On| | | |exact E|].
      * apply (rename_part x g y q (n mod 2^32) Sp P2 On Hr Hk).
      * cbn [a_set_files a_files]. rewrite body_rename, Sp. reflexivity.
      * reflexivity.
      * spec Eo. rewrite Ev, Ef. reflexivity.
    + rewrite P in E. ret. spec Eo. rewrite Ev, Ef. reflexivity.
Qed.
(* ---- new metadata ---- *)
Lemma find_of_split id ref l : match meta_split id ref l with
  | Some _ => exists i, find_index (fun e => (e_id e =? id) && (e_ref e =? ref)) l = Some i
  | None => find_index (fun e => (e_id e =? id) && (e_ref e =? ref)) l = None end.
Proof using.
  pose proof (meta_split_spec id ref l) as Sp. destruct (meta_split id ref l) as [[[x v] y]|].
  - destruct (find_index _ l) as [i|] eqn:Ei; eauto. apply find_key_None in Ei. elim Ei. rewrite Sp, map_app. apply in_elt.
  - now apply find_key_None.
Qed.
Lemma step_add_meta id ref data size : py_ok a (KAddMeta id ref data size) -> goes (KAddMeta id ref data size).
Proof using Hh Iv.
  intros Ok. cbn [py_ok] in Ok. destruct Ok as (O1 & O2 & O3 & O4).
  assert (E : py_step sha s (KAddMeta id ref data size) =
    match new_meta data size with
    | inl e => (s, Exc e)
    | inr (d, n) =>
      match add_meta h (id mod 2^32) (ref mod 2^32) (u16 n) with
      | (h1, Ok i) =>
          match meta_write h1 i 0 (ztake n d) with
          | Ok h2 =>
              match store s h2 VNone with
              | (s', Val _) => alloc s' (HMeta (id mod 2^32) (ref mod 2^32))
              | (s', Exc e) => (s', if was_str data then Crash else Exc e)
              | x => x
              end
          | _ => (s, Crash)
          end
      | (h1, Err _) => (with_pkg s (mkPkg h1 (st_file s)), Exc XError)
      | (_, _) => (s, Crash)
      end
    end).
  { cbn [py_step]. unfold py_add_meta, new_meta. fold h. cbv zeta.
    change (2^63) with 9223372036854775808. destruct (_ || _); [reflexivity|].
    destruct data as [v|]; [rewrite meta_arg_eq; destruct (data_arg v); reflexivity|]. destruct (_ <? 0); reflexivity. }
  destruct (new_meta data size) as [e|[d n]] eqn:En; [ret; cbn [py_spec]; rewrite En; reflexivity|].
  destruct (O4 d n eq_refl) as [Hn He]. pose proof (hi_metas _ _ Hh) as M. pose proof (hi_wf _ _ Hh) as W.
  assert (Hn0 : 0 <= n).
  { unfold new_meta in En. destruct (_ || _); [discriminate|]. destruct data as [v|].
    - destruct (data_arg v) as [e|d0]; [discriminate|].
      destruct (Z.ltb_spec (match size with Some n => n | None => -1 end) 0); injection En as <- <-; auto. apply zlen_nonneg.
    - destruct (Z.ltb_spec (match size with Some n => n | None => -1 end) 0); [discriminate|]. injection En as <- <-. auto. }
  assert (Bd : bytes_ok d).
  { unfold new_meta in En. destruct (_ || _); [discriminate|]. destruct data as [v|].
    - destruct (data_arg v) as [e|d0] eqn:Ed; [discriminate|].
      assert (d0 = d) by (destruct (_ <? 0); congruence). subst d0. eapply data_arg_ok; eauto; intros ? ->; eauto.
    - destruct (_ <? 0); [discriminate|]. injection En as <- <-. constructor. }
  assert (U : u16 n = n) by (unfold u16; rewrite Z.mod_small; lia). rewrite U in E.
  set (id' := id mod 2^32) in *. set (ref' := ref mod 2^32) in *.
  pose proof (add_meta_spec h (a_metas a) id' ref' n O1 M) as Am. pose proof (find_of_split id' ref' (a_metas a)) as Fs.
  destruct (meta_split id' ref' (a_metas a)) as [w|] eqn:Ef.
  { destruct Fs as (i & Fi). rewrite Fi in Am. rewrite Am in E.
    replace (with_pkg s (mkPkg h (st_file s))) with s in E.
    2:{ clear. unfold h, st_header, st_file, with_pkg. destruct s as [[? [? ?]] ?]. reflexivity. }
    ret. cbn [py_spec]. rewrite En. fold id' ref'. rewrite Ef. destruct w as [[? ?] ?]. reflexivity. }
  rewrite Fs in Am. pose proof M as (_ & _ & Hlen & _).
  destruct (Nat.eqb_spec (length (a_metas a)) 32) as [E32|E32].
  { rewrite Am in E. replace (with_pkg s (mkPkg h (st_file s))) with s in E.
    2:{ clear. unfold h, st_header, st_file, with_pkg. destruct s as [[? [? ?]] ?]. reflexivity. }
    ret. cbn [py_spec]. rewrite En. fold id' ref'. rewrite Ef, E32. reflexivity. }
  destruct Am as (m & Hm & Hm0 & Am). rewrite Am in E. unfold METADATA_BYTES in E.
  destruct (Z.gtb_spec (meta_end (a_metas a) + n) 1920); [lia|].
  set (h1 := with_meta h (list_upd (length (a_metas a)) (fill m id' ref' n (meta_end (a_metas a))) (h_meta h))) in *.
  set (old := slice (meta_end (a_metas a)) n (h_metadata h)).
  pose proof (metas_are_add _ _ _ id' ref' n m O1 M Fs ltac:(lia) Hm Hn0 He) as M1. fold old in M1.
  pose proof (meta_end_nonneg (a_metas a)) as Hme.
  assert (Lo : zlen old = n) by (unfold old; rewrite zlen_slice; destruct (wf_metadata h W); lia).
  assert (W1 : wf_header h1).
  { unfold h1. rewrite only_meta. apply wf_with_metas; auto; try apply (wf_metadata h W).
    - rewrite length_list_upd. apply (wf_metas h W).
    - apply (wf_list_upd_meta _ m Hm); unfold id', ref'; lia. }
  assert (H1 : hinv h1 (a_set_metas a (a_metas a ++ [mkEntry id' ref' old]))).
  { eapply hinv_metas; eauto.
    cbn [h1 h_meta with_meta]. apply Forall_list_upd; [exact (hi_ghost _ _ Hh)|]. cbn [fill m_id]. contradiction. }
  assert (Lt : zlen (ztake n d) <= n) by (rewrite zlen_ztake; lia).
  pose proof (zlen_nonneg (ztake n d)) as Lt0.
  assert (Hs1 : nth_error (h_meta h1) (length (a_metas a)) = Some (fill m id' ref' n (meta_end (a_metas a)))).
  { unfold h1. cbn [h_meta with_meta]. apply nth_error_list_upd_same. destruct (wf_metas h W) as [L _]. rewrite L. lia. }
  unfold meta_write in E. rewrite Hs1 in E. cbn [fill m_offset] in E. rewrite Z.add_0_r in E. unfold METADATA_BYTES in E.
  destruct (Z.gtb_spec (meta_end (a_metas a) + zlen (ztake n d)) 1920); [lia|].
  set (h2 := with_metadata h1 (splice (meta_end (a_metas a)) (ztake n d) (h_metadata h1))) in *.
  set (ms := a_metas a ++ [mkEntry id' ref' (ztake n d ++ zdrop (zlen (ztake n d)) old)]).
  assert (H2 : hinv h2 (a_set_metas (a_set_metas a (a_metas a ++ [mkEntry id' ref' old])) ms)).
  { pose proof (metas_are_write _ _ (a_metas a) id' ref' old [] 0 (ztake n d) M1 ltac:(lia) ltac:(lia)) as M2. rewrite Z.add_0_r in M2.
    unfold splice at 2 in M2. rewrite ztake_0, Z.add_0_l in M2. cbn [app] in M2.
    eapply hinv_metas; [exact H1| |exact M2| |].
    - unfold h2. rewrite only_metadata. apply wf_with_metas; auto; try apply (wf_metas h1 W1).
      + destruct (wf_metadata h1 W1) as [L _]. rewrite zlen_splice; lia.
      + apply bytes_ok_splice; [now apply bytes_ok_ztake|]. apply (wf_metadata h1 W1).
    - exact (hi_ghost _ _ H1).
    - exact (only_metadata h1 _). }
  change (a_set_metas (a_set_metas a (a_metas a ++ [mkEntry id' ref' old])) ms) with (a_set_metas a ms) in H2.
  destruct (store_ok0 s a h2 (a_set_metas a ms) VNone Iv H2 eq_refl eq_refl) as (s' & Es & I' & _). rewrite Es in E.
  eapply goes_new; [exact I'| |exact E|].
  - exact O1.
  - cbn [py_spec]. rewrite En. fold id' ref'. rewrite Ef. destruct (Nat.leb_spec 32 (length (a_metas a))); [lia|].
    exists (zdrop (zlen (ztake n d)) old). split; [|reflexivity]. rewrite zlen_zdrop. lia.
Qed.

(* ---- adding and deleting parts ---- *)
Lemma same_parts_meta (g g' : header) : same_besides_parts g g' -> same_besides_parts_meta g g'.
Proof using.
  unfold same_besides_parts, same_besides_parts_meta. intros E. rewrite E at 1. rewrite E. destruct g. reflexivity.
Qed.
Lemma pkg_inv_of p' a' (es : list (parth * bytes)) : holds p' es -> offsets_from 4096 es -> Forall2 file_matches (a_files a') es ->
  hinv (pk_header p') a' -> a_objs a' = a_objs a -> py_inv (with_pkg s p') a'.
Proof using Iv.
  intros H O F Hi Eo. constructor; cbn [with_pkg st_obj py_fp st_handles].
  - exact (iv_fp _ _ Iv).
  - rewrite Eo. exact (iv_objs _ _ Iv).
  - rewrite Eo. exact (iv_ok _ _ Iv).
  - exact Hi.
  - destruct (wf_payload_hash _ (ho_wf _ _ H)) as [L1 L2]. exists (h_payload_hash (pk_header p')). split; auto. split; auto.
    unfold st_file, st_header. cbn [with_pkg st_obj py_pkg]. rewrite hash_id, <- (body_eq _ _ F). exact (ho_file _ _ H).
Qed.
Lemma headed_of p (es : list (parth * bytes)) : holds p es -> holds (headed (pk_header p) es) es.
Proof using. intros H. unfold headed. rewrite <- (ho_file _ _ H). destruct p; exact H. Qed.
Lemma parts_hinv h' a' (es : list (parth * bytes)) : holds (headed h' es) es -> offsets_from 4096 es -> Forall2 file_matches (a_files a') es ->
  Forall (fun f => Z.testbit (f_flags f) 1 = false) (a_files a') ->
  metas_are (h_meta h') (h_metadata h') (a_metas a') -> no_ghost_refs (h_meta h') ->
  same_besides_parts_meta h h' -> (forall x, a_get a' x = a_get a x) -> a_sig a' = a_sig a -> hinv h' a'.
Proof using Hh.
  intros H O F P M N S Ga Gs. constructor; auto.
  - exists es. auto.
  - rewrite S. exact (hi_magic _ _ Hh).
  - intros x. rewrite Ga, S. pose proof (hi_attr _ _ Hh x) as A. destruct x; exact A.
  - rewrite Gs, S. exact (hi_sig _ _ Hh).
Qed.
Lemma with_own_pkg : with_pkg s (mkPkg h (st_file s)) = s.
Proof using Iv. unfold h, st_header, st_file, with_pkg. destruct s as [[? [? ?]] ?]. reflexivity. Qed.
Lemma own_pkg : py_pkg (st_obj s) = mkPkg h (st_file s).
Proof using Iv. unfold h, st_header, st_file. destruct s as [[? [? ?]] ?]. reflexivity. Qed.
Lemma step_delete_meta k id ref : nth_error (a_objs a) k = Some (HMeta id ref) -> (length (a_metas a) < 32)%nat -> goes (KDelete k).
Proof using Hh Iv.
  intros Eo Hl. assert (E : py_step sha s (KDelete k) = on_any s k (fun x => py_delete sha s x)) by reflexivity.
  rewrite on_any_eq, Eo in E. unfold py_delete in E. fold h in E.
  pose proof (meta_at k id ref Eo) as P. pose proof (meta_split_spec id ref (a_metas a)) as Sp. pose proof (hi_wf _ _ Hh) as W.
  destruct (meta_split id ref (a_metas a)) as [[[x v] y]|] eqn:Ef.
  - destruct P as (m & P1 & _). rewrite P1 in E. pose proof (hi_metas _ _ Hh) as M. rewrite Sp in M, Hl.
    destruct (del_meta_exact h x id ref v y M Hl) as (h1 & E1 & M1 & S1). rewrite E1 in E.
    destruct (del_meta_wf _ _ _ E1 ltac:(apply (wf_metas h W)) ltac:(apply (wf_metadata h W))) as [Wm Wb].
    pose proof (del_meta_no_ghost _ _ _ E1 (hi_ghost _ _ Hh)) as N1.
    assert (W1 : wf_header h1).
    { rewrite S1. destruct M1 as (X1 & X2 & _). now apply wf_with_metas. }
    pose proof (hinv_metas h a h1 _ Hh W1 M1 N1 S1) as H1.
    destruct (store_ok0 s a h1 _ VNone Iv H1 eq_refl eq_refl) as (s' & Es & I' & _). rewrite Es in E.
    eexists s', (Val VNone), _. split; [exact E|]. split; [discriminate|]. split; [discriminate|]. split; [|exact I'].
    spec Eo. rewrite Ef. reflexivity.
  - rewrite P in E. ret. spec Eo. rewrite Ef. reflexivity.
Qed.
Lemma synced_current p' a' (es : list (parth * bytes)) : holds p' es -> hash_current sha p' es -> Forall2 file_matches (a_files a') es ->
  py_inv (with_pkg s p') a' -> current (with_pkg s p') a' /\ synced (with_pkg s p').
Proof using.
  intros H C F I'. pose proof (hi_attr _ _ (iv_h _ _ I') HashKind) as Ek. cbn [get_attr a_get] in Ek.
  split; [|exists (concat (map snd es)); exact (ho_file _ _ H)].
  unfold current. rewrite <- Ek, <- (files_covered_eq _ _ F). exact C.
Qed.
Definition parts_post (s' : pyst) (r : pyres) (a' : apkg) : Prop :=
  match r with Val _ => current s' a' /\ synced s' | _ => st_file s' = st_file s /\ st_header s' = st_header s /\ a' = a end.
Lemma step_delete_part_strong k id : nth_error (a_objs a) k = Some (HPart id) -> (length (a_metas a) < 32)%nat -> hash_supported (a_kind a) = true ->
  gets parts_post (KDelete k).
Proof using Hh Iv G.
  intros Eo Hl Hs. assert (E : py_step sha s (KDelete k) = on_any s k (fun x => py_delete sha s x)) by reflexivity.
  rewrite on_any_eq, Eo in E. unfold py_delete, call_c in E. rewrite (iv_fp _ _ Iv), own_pkg in E.
  pose proof (obj_at _ _ Eo) as Hid. cbn [obj_ok] in Hid.
  pose proof (found_part h a id Hh Hid) as Fp. pose proof (file_split_spec id (a_files a)) as Sp. pose proof (hinv_bound _ _ Hh) as Bd.
  pose proof (hi_wf _ _ Hh) as W. destruct (iv_file _ _ Iv) as (xx & X1 & X2 & X3).
  destruct (file_split id (a_files a)) as [[[x g] y]|] eqn:Ef.
  - destruct Sp as (Sp & Sg & _). destruct (hi_es _ _ Hh) as (es & H & O & F). rewrite Sp in Bd.
    destruct (Forall2_split _ _ _ _ _ _ F Sp) as (b1 & [q c] & b2 & -> & F1 & (Q1 & Q2 & Q3 & Q4 & Q5) & F2). cbn [fst snd] in *.
    fold h in X3.
    assert (Wx : wf_header (HeaderModel.with_payload_hash h xx)) by now apply wf_with_payload_hash.
    destruct (delete_part_head sha (headed h (b1 ++ (q, c) :: b2)) (enc_header (HeaderModel.with_payload_hash h xx)) b1 q c b2 true (a_metas a) G H)
      as (p' & Ep & Hp & Hc & _ & Hm).
    + now apply zlen_enc_header.
    + unfold headed. cbn [pk_header]. pose proof (hi_attr _ _ Hh HashKind) as A. cbn [get_attr a_get] in A. now rewrite A.
    + intros _. unfold headed. cbn [pk_header]. split; [exact (hi_metas _ _ Hh)|]. split; [exact Hl|exact (hi_ghost _ _ Hh)].
    + destruct (Hm eq_refl) as (Sm & Mm & Nm). unfold headed in Ep, Sm. cbn [pk_header] in Ep, Sm.
      rewrite (body_eq _ _ F), <- X3, Q2, Sg in Ep. rewrite Ep in E. cbn [fst snd] in E.
      rewrite Q2, Sg in Mm.
      set (a' := a_set_metas (a_set_files a (x ++ y)) (purge (fun e => e_ref e =? id) 1920 (a_metas a))).
      pose proof (hi_plain _ _ Hh) as Pl. rewrite Sp in Pl. apply Forall_app in Pl as [Pa Pb].
      assert (O' : offsets_from 4096 (b1 ++ map (moved (zlen c)) b2)).
      { apply offsets_app. apply offsets_app in O as [O1 O2]. split; auto. cbn [offsets_from snd] in O2.
        destruct O2 as [_ O2]. pose proof (zlen_nonneg (concat (map snd b1))). pose proof (zlen_nonneg c).
        apply offsets_moved; auto; try lia.
        unfold stored_bytes in Bd. rewrite map_app, concat_app in Bd. cbn [map concat] in Bd. rewrite !zlen_app in Bd.
        pose proof (body_eq _ _ F1) as B1. pose proof (body_eq _ _ F2) as B2. unfold body in B1, B2. rewrite B1, B2, Q1. unfold bytes in *. lia. }
      assert (F' : Forall2 file_matches (a_files a') (b1 ++ map (moved (zlen c)) b2)).
      { cbn [a' a_set_metas a_set_files a_files]. apply Forall2_app; auto. now apply moved_matches. }
      assert (I' : py_inv (with_pkg s p') a').
      { eapply pkg_inv_of; eauto. eapply parts_hinv; eauto.
        - now apply headed_of.
        - cbn [a' a_set_metas a_set_files a_files]. apply Forall_app. split; auto. exact (Forall_inv_tail Pb). }
      exists (with_pkg s p'), (Val VNone), a'. split; [exact E|]. split; [discriminate|]. split; [discriminate|]. split; [|split; [exact I'|]].
      * spec Eo. rewrite Ef. reflexivity.
      * eapply synced_current; eauto.
  - unfold pkg_delete_part in E. cbn [pk_header] in E. rewrite Fp in E. cbn [fst snd] in E. fold h in E. rewrite with_own_pkg in E.
    eapply gets_ret; [eassumption|discriminate|discriminate| |]; [spec Eo; rewrite Ef; reflexivity|]. cbn [parts_post]. auto.
Qed.
Lemma step_delete_part k id : nth_error (a_objs a) k = Some (HPart id) -> (length (a_metas a) < 32)%nat -> hash_supported (a_kind a) = true ->
  goes (KDelete k).
Proof using Hh Iv G. intros H1 H2 H3. exact (gets_goes _ _ (step_delete_part_strong k id H1 H2 H3)). Qed.
Lemma step_delete k : py_ok a (KDelete k) -> goes (KDelete k).
Proof using Hh Iv G.
  intros Ok. cbn [py_ok] in Ok. destruct Ok as (O1 & O2). destruct (nth_error (a_objs a) k) as [[id ref|id]|] eqn:Eo.
  - eapply step_delete_meta; eauto.
  - eapply step_delete_part; eauto.
  - assert (E : py_step sha s (KDelete k) = on_any s k (fun x => py_delete sha s x)) by reflexivity.
    rewrite on_any_eq, Eo in E. ret. spec Eo. reflexivity.
Qed.
Lemma step_add_file_strong name data : py_ok a (KAddFile name data) -> gets parts_post (KAddFile name data).
Proof using Hh Iv G.
  intros Ok. cbn [py_ok] in Ok. destruct Ok as (O1 & O2 & O3 & O4).
  assert (E : py_step sha s (KAddFile name data) = py_add_file sha s name data) by reflexivity.
  unfold py_add_file in E. destruct data as [d|]; [|eapply gets_ret; [eassumption|discriminate|discriminate|reflexivity|cbn [parts_post]; auto]]. cbv zeta in E.
  unfold call_c in E. rewrite (iv_fp _ _ Iv), own_pkg in E. specialize (O4 d eq_refl).
  pose proof (file_split_spec (bpak_id name) (a_files a)) as Sp. pose proof (hi_wf _ _ Hh) as W. destruct (iv_file _ _ Iv) as (xx & X1 & X2 & X3).
  destruct (hi_es _ _ Hh) as (es & H & O & F). fold h in X3.
  pose proof (add_part_holds _ _ (bpak_id name) H O2) as Ap. unfold headed in Ap. cbn [pk_header] in Ap.
  pose proof (ids_of _ _ F) as Ids. assert (Ln : length es = length (a_files a)).
  { apply (f_equal (@length Z)) in Ids. rewrite !map_length in Ids. exact Ids. }
  assert (Wx : wf_header (HeaderModel.with_payload_hash h xx)) by now apply wf_with_payload_hash.
  assert (Hx : existsb (fun e : parth * bytes => p_id (fst e) =? bpak_id name) es = true <-> In (bpak_id name) (map f_id (a_files a))).
  { rewrite <- Ids, existsb_exists, in_map_iff. split; intros (e & A & B); exists e; split; auto; now apply Z.eqb_eq. }
  destruct (file_split (bpak_id name) (a_files a)) as [[[x g] y]|] eqn:Ef.
  { destruct Sp as (Sp & Sg & _). rewrite (proj2 Hx) in Ap by (rewrite Sp, map_app, <- Sg; apply in_elt).
    unfold pkg_add_file in E. cbn [pk_header pk_file] in E. rewrite Ap in E. cbn [fst snd] in E. rewrite with_own_pkg in E.
    eapply gets_ret; [eassumption|discriminate|discriminate| |]; [cbn [py_spec]; rewrite Ef; reflexivity|]. cbn [parts_post]. auto. }
  replace (existsb _ es) with false in Ap.
  2:{ symmetry. apply not_true_is_false. intros C. apply Sp. now apply Hx. }
  rewrite Ln in Ap. destruct (Nat.leb_spec 32 (length (a_files a))) as [L32|L32].
  { unfold pkg_add_file in E. cbn [pk_header pk_file] in E. rewrite Ap in E. cbn [fst snd] in E. rewrite with_own_pkg in E.
    eapply gets_ret; [eassumption|discriminate|discriminate| |]; [|cbn [parts_post]; auto].
    cbn [py_spec]. rewrite Ef. destruct (Nat.leb_spec 32 (length (a_files a))); [|lia]. reflexivity. }
  destruct (add_file_head sha (headed h es) (enc_header (HeaderModel.with_payload_hash h xx)) es d name 0 G H) as (p' & Ep & Hp & Sm & Hc); auto.
  - now apply zlen_enc_header.
  - eapply plain_of; eauto. exact (hi_plain _ _ Hh).
  - unfold headed. cbn [pk_header]. pose proof (hi_attr _ _ Hh HashKind) as A. cbn [get_attr a_get] in A. now rewrite A.
  - now rewrite Ids.
  - now rewrite Ln.
  - lia.
  - unfold headed. cbn [pk_file]. rewrite zlen_app, zlen_enc_header by auto. rewrite (body_eq _ _ F). exact O4.
  - unfold headed in Ep, Sm. cbn [pk_header] in Ep, Sm. rewrite (body_eq _ _ F), <- X3 in Ep. rewrite Ep in E. cbn [fst snd] in E.
    set (e := (new_part (headed h es) (bpak_id name) d 0, d ++ zeros (padding (zlen d)))) in *.
    set (f := mkFile (bpak_id name) 0 d). set (a' := a_set_files a (a_files a ++ [f])).
    pose proof (hi_wf _ _ Hh). assert (Lh : zlen (pk_file (headed h es)) = 4096 + zlen (concat (map snd es))).
    { unfold headed. cbn [pk_file]. rewrite zlen_app, zlen_enc_header by auto. reflexivity. }
    assert (O' : offsets_from 4096 (es ++ [e])).
    { apply offsets_app. split; auto. cbn [offsets_from fst snd e new_part p_offset]. rewrite Lh. auto. }
    assert (F' : Forall2 file_matches (a_files a') (es ++ [e])).
    { cbn [a' a_set_files a_files]. apply Forall2_app; auto. constructor; auto. unfold file_matches, e, f, file_stored. cbn. auto 10. }
    assert (Hi' : hinv (pk_header p') a').
    { eapply parts_hinv; eauto.
      - now apply headed_of.
      - cbn [a' a_set_files a_files]. apply Forall_app. split; [exact (hi_plain _ _ Hh)|]. constructor; auto.
      - rewrite Sm. exact (hi_metas _ _ Hh).
      - rewrite Sm. exact (hi_ghost _ _ Hh).
      - now apply same_parts_meta. }
    assert (I' : py_inv (with_pkg s p') a') by (eapply pkg_inv_of; eauto).
    pose proof (get_part_at p' es (fst e) (snd e) []) as Gp. 
    destruct Gp as [Gp _]. { rewrite <- surjective_pairing. exact Hp. }
    change (st_header (with_pkg s p')) with (pk_header p') in E.
    change (p_id (fst e)) with (bpak_id name) in Gp. rewrite Gp in E.
    destruct (alloc_ok (with_pkg s p') a' (HPart (bpak_id name)) I' O2) as (s2 & E2 & I2). rewrite E2 in E.
    assert (S2 : s2 = with_handles (with_pkg s p') (st_handles s ++ [HPart (bpak_id name)])) by (apply (f_equal fst) in E2; symmetry; exact E2).
    destruct (synced_current p' a' (es ++ [e]) Hp Hc F' I') as [C1 C2].
    eexists s2, _, _. split; [exact E|]. split; [discriminate|]. split; [discriminate|]. split; [|split; [exact I2|]].
    + cbn [py_spec]. rewrite Ef. destruct (Nat.leb_spec 32 (length (a_files a))); [lia|]. symmetry. apply surjective_pairing.
    + cbn [fst a_new parts_post]. rewrite S2. split; [exact C1|exact C2].
Qed.
Lemma step_add_file name data : py_ok a (KAddFile name data) -> goes (KAddFile name data).
Proof using Hh Iv G. intros Ok. exact (gets_goes _ _ (step_add_file_strong name data Ok)). Qed.
Theorem step_ok c : py_ok a c -> goes c.
Proof using Hh Iv G.
  destruct c; intros Ok.
  - contradiction.
  - now apply step_add_file.
  - now apply step_add_meta.
  - now apply step_get_part.
  - now apply step_get_meta.
  - now apply step_digest.
  - apply step_get.
  - now apply step_set.
  - apply step_signature.
  - now apply step_set_signature.
  - apply step_sizes.
  - apply step_sizes.
  - apply step_parts.
  - apply step_metas.
  - apply step_id.
  - now apply step_set_id.
  - apply step_ref.
  - now apply step_set_ref.
  - apply step_obj_size.
  - apply step_raw.
  - now apply step_set_raw.
  - now apply step_string.
  - apply step_offset.
  - apply step_encoded.
  - apply step_read.
  - now apply step_delete.
Qed.
End Step.

Theorem run_ok sha : good_hash sha -> forall cs s a, py_inv s a -> py_allowed a cs ->
  exists s' rs a', py_run sha s cs = (s', rs) /\ ~ In Crash rs /\ ~ In Hang rs /\ py_specs a cs rs a' /\ py_inv s' a'.
Proof.
  intros G. induction cs as [|c cs IH]; intros s a Iv Ok.
  - exists s, [], a. split; [reflexivity|]. split; [tauto|]. split; [tauto|]. split; [constructor|exact Iv].
  - destruct Ok as [Oc Or]. destruct (step_ok sha G s a Iv c Oc) as (s1 & r & a1 & E1 & R1 & R2 & S1 & I1).
    destruct (IH s1 a1 I1 (Or r a1 S1)) as (s2 & rs & a2 & E2 & R3 & R4 & S2 & I2).
    exists s2, (r :: rs), a2. cbn [py_run]. rewrite E1, E2. split; [destruct r; congruence|].
    split; [intros [C|C]; contradiction|]. split; [intros [C|C]; contradiction|]. split; [|exact I2].
    econstructor; eauto.
Qed.
