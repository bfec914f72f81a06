(* CliClaims.v -- consequences of CliProofs.v that users rely on *)
From Coq Require Import String.
From Verif Require Import BaseLemmas HeaderModel HeaderSpec HeaderHistory CodecProofs PartProofs MetaProofs CrcModel CrcProofs HashModel
  MerkleModel MerkleSpec MerkleApi VerifyModel VerifySpec PkgModel PkgSpec PkgProofs PkgAdd PkgDelete PkgHistory PkgApi
  UtilModel UtilSpec UtilProofs CliModel CliSpec CliMeta CliArgs CliNumbers CliStep CliProofs.
Local Open Scope Z_scope.

(* one command *)
Lemma run_one sha c f w : good_hash sha -> stored sha f w -> fits w c = true ->
  let '(f', out, r) := run_cmd sha c f in exists w', stored sha f' w' /\ spec_cmd sha w c w' out r.
Proof.
  intros G S F. apply stored_st in S as (p & <- & S). pose proof (cmd_step sha p w c G S F) as A. unfold step_ok in A.
  destruct (run_cmd sha c (pk_file p)) as [[f' out] r]. destruct A as (p' & w' & E & S' & Sc).
  exists w'. split; [apply stored_st; eauto|exact Sc].
Qed.
(* files of a package: distinct, non-zero 32-bit ids *)
Lemma stored_files sha f w : stored sha f w ->
  NoDup (map f_id (w_files w)) /\ (forall x, In x (w_files w) -> 0 < f_id x < 2^32).
Proof.
  intros S. apply stored_st in S as (p & <- & [[(es & H & O & F) _ _ _ _ _] _ _]).
  assert (E : map f_id (w_files w) = map (fun e : parth * bytes => p_id (fst e)) es).
  { clear - F. induction F as [|x e fs es (H1 & H2 & _) _ IH]; [reflexivity|]. cbn [map]. now rewrite IH, H2. }
  split; [rewrite E; apply (ho_distinct _ _ H)|]. intros x Hx. pose proof (in_map f_id _ _ Hx) as Hi. rewrite E in Hi.
  apply in_map_iff in Hi as ([q c] & Eq & Hq). rewrite <- Eq. cbn [fst].
  pose proof (ho_nonzero _ _ H) as N. rewrite Forall_forall in N. specialize (N _ Hq). cbn [fst] in N.
  pose proof (ho_wf _ _ H) as W. pose proof (ho_table _ _ H) as T.
  assert (Hp : In q (h_parts (pk_header p))) by (rewrite T; apply in_or_app; left; apply (in_map fst _ _ Hq)).
  pose proof (wf_parts _ W) as [_ Wq]. rewrite Forall_forall in Wq. destruct (Wq _ Hp) as (B & _). lia.
Qed.
Lemma find_unique (fs : list fentry) x : NoDup (map f_id fs) -> In x fs -> find (fun y => f_id y =? f_id x) fs = Some x.
Proof.
  induction fs as [|y fs IH]; [contradiction|]. cbn [map find]. intros N H. inversion N as [|? ? N1 N2]; subst. destruct H as [->|H].
  - now rewrite Z.eqb_refl.
  - destruct (Z.eqb_spec (f_id y) (f_id x)) as [E|_]; [elim N1; rewrite E; now apply in_map|now apply IH].
Qed.
Lemma extract_by_id sha f w part x : good_hash sha -> stored sha f w -> In x (w_files w) -> arg_id part = f_id x ->
  run_cmd sha (CExtractPart part) f = (f, Some (f_data x), Ok tt).
Proof.
  intros G S Hx Ha. destruct (stored_files _ _ _ S) as [N B]. specialize (B x Hx). apply stored_st in S as (p & <- & S).
  pose proof (step_extract_part sha G p w S part) as A. unfold step_ok in A. cbn [run_cmd spec_cmd] in *.
  assert (Ef : fst (fst (cli_extract_part sha part (pk_file p))) = pk_file p).
  { unfold cli_extract_part, with_package. destruct (id_arg part =? 0); [reflexivity|]. rewrite (st_open _ _ _ S).
    destruct (pkg_extract_file p (id_arg part)); reflexivity. }
  destruct (cli_extract_part sha part (pk_file p)) as [[f' out] r]. cbn [fst] in Ef. subst f'. destruct A as (p' & w' & _ & _ & -> & A).
  rewrite Ha in A. destruct (Z.eqb_spec (f_id x) 0); [lia|]. rewrite (find_unique _ _ N Hx) in A. destruct A as [-> ->]. reflexivity.
Qed.
Lemma number_arg_id s v : hex_num s v -> 0 <= v < 2^32 -> arg_id (bytes_of "0x" ++ s) = v.
Proof. intros H B. rewrite <- id_arg_spec, (hex_arg s v H) by lia. apply Z.mod_small. lia. Qed.
Lemma name_arg_id s : ztake 2 s <> bytes_of "0x" -> arg_id s = bpak_id s.
Proof. intros H. rewrite <- id_arg_spec. now apply name_arg. Qed.
(* parts by number *)
Lemma extract_by_number sha f w s x : good_hash sha -> stored sha f w -> In x (w_files w) -> hex_num s (f_id x) ->
  run_cmd sha (CExtractPart (bytes_of "0x" ++ s)) f = (f, Some (f_data x), Ok tt).
Proof.
  intros G S Hx H. eapply extract_by_id; eauto. apply number_arg_id; auto. destruct (stored_files _ _ _ S) as [_ B]. specialize (B x Hx). lia.
Qed.
(* parts by name *)
Lemma add_then_extract sha f w name data dh f1 out : good_hash sha -> stored sha f w -> fits w (CAddPart name data dh) = true ->
  ztake 2 name <> bytes_of "0x" -> run_cmd sha (CAddPart name data dh) f = (f1, out, Ok tt) ->
  run_cmd sha (CExtractPart name) f1 = (f1, Some data, Ok tt).
Proof.
  intros G S F N R. pose proof (run_one sha _ f w G S F) as A. rewrite R in A. destruct A as (w' & S' & Sc).
  cbn [spec_cmd spec_pkg_op] in Sc. destruct (existsb _ _); [destruct Sc as (_ & _ & Sc); discriminate|].
  destruct (_ <=? _)%nat; [destruct Sc as (_ & _ & Sc); discriminate|]. destruct Sc as (-> & _ & _).
  change data with (f_data (mkFile (bpak_id name) (flags_of dh) data)).
  eapply extract_by_id; eauto; [cbn [set_files w_files]; apply in_or_app; right; left; reflexivity|]. cbn [f_id]. now apply name_arg_id.
Qed.
(* metadata by number *)
Lemma stored_metas sha f w : stored sha f w -> NoDup (map e_key (w_metas w)) /\ (forall e, In e (w_metas w) -> 0 < e_id e < 2^32 /\ 0 <= e_ref e < 2^32).
Proof.
  intros S. apply stored_st in S as (p & <- & [_ M _]). split; [exact (hm_nodup _ _ M)|]. intros e He.
  apply in_split in He as (a & b & El). rewrite El in M. destruct e as [id ref v]. destruct (slot_at _ _ _ _ _ _ M) as (m & Hm & Ei & Er & _).
  pose proof (hm_wf _ _ M) as W. pose proof (hm_are _ _ M) as (_ & _ & _ & _ & N & _). apply Forall_app in N as [_ N]. inversion N as [|? ? N1 _]; subst. cbn [e_id e_ref] in *.
  pose proof (wf_metas _ W) as [_ Wm]. rewrite Forall_forall in Wm. apply nth_error_In in Hm. destruct (Wm _ Hm) as (B1 & B2 & B3 & B4 & _). lia.
Qed.
Lemma extract_meta_by_id sha f w m ref : good_hash sha -> stored sha f w -> fits w (CExtractMeta m ref) = true -> arg_id m <> 0 ->
  run_cmd sha (CExtractMeta m ref) f = (f, option_map e_val (find (has_key (arg_id m) (ref_id arg_id ref)) (w_metas w)),
    match find (has_key (arg_id m) (ref_id arg_id ref)) (w_metas w) with Some _ => Ok tt | None => Err E_NOT_FOUND end).
Proof.
  intros G S F N. pose proof S as S0. apply stored_st in S as (p & <- & S).
  pose proof (step_extract_meta sha p w S m ref F) as A. unfold step_ok in A. cbn [run_cmd spec_cmd] in *.
  assert (Ef : fst (fst (cli_extract_meta sha m ref (pk_file p))) = pk_file p).
  { unfold cli_extract_meta, with_package. destruct (id_arg m =? 0); [reflexivity|]. rewrite (st_open _ _ _ S).
    destruct (get_meta (pk_header p) (id_arg m) _) as [i| | |]; try reflexivity.
    destruct (nth_error (h_meta (pk_header p)) i) as [mm|]; [|reflexivity].
    destruct (meta_read (pk_header p) i 0 (m_size mm)); reflexivity. }
  destruct (cli_extract_meta sha m ref (pk_file p)) as [[f' out] r]. cbn [fst] in Ef. subst f'. destruct A as (p' & w' & _ & _ & -> & A).
  destruct (Z.eqb_spec (arg_id m) 0); [contradiction|]. destruct (find _ _); destruct A as [-> ->]; reflexivity.
Qed.
Lemma hex_text_ok s v : hex_num s v -> text (bytes_of "0x" ++ s) = true.
Proof.
  intros H. destruct (hex_num_digits s v H) as (A & _). rewrite bytes_0x. unfold text. cbn [app forallb].
  change (0 <? 48) with true. change (48 <? 256) with true. change (0 <? 120) with true. change (120 <? 256) with true. cbn [andb].
  apply forallb_forall. rewrite Forall_forall in A. intros c Hc. specialize (A c Hc). unfold isxdigit in A.
  destruct (Z.ltb_spec 0 c), (Z.ltb_spec c 256); auto; exfalso; lia.
Qed.
Lemma find_key_unique l e : NoDup (map e_key l) -> In e l -> find (has_key (e_id e) (e_ref e)) l = Some e.
Proof.
  intros N H. apply in_split in H as (a & b & ->). destruct e as [id ref v]. cbn [e_id e_ref]. apply find_at.
  rewrite map_app in N. cbn [map] in N. apply NoDup_remove_2 in N. intros C. apply N. apply in_or_app. now left.
Qed.
Lemma extract_meta_by_number sha f w e s t : good_hash sha -> stored sha f w -> In e (w_metas w) -> hex_num s (e_id e) -> hex_num t (e_ref e) ->
  run_cmd sha (CExtractMeta (bytes_of "0x" ++ s) (Some (bytes_of "0x" ++ t))) f = (f, Some (e_val e), Ok tt).
Proof.
  intros G S He Hs Ht. destruct (stored_metas _ _ _ S) as [N B]. specialize (B e He).
  pose proof (number_arg_id s _ Hs ltac:(lia)) as Es. pose proof (number_arg_id t _ Ht ltac:(lia)) as Et.
  rewrite (extract_meta_by_id sha f w _ _ G S).
  - cbn [ref_id]. rewrite Es, Et, (find_key_unique _ _ N He). reflexivity.
  - cbn [fits opt_text]. now rewrite (hex_text_ok _ _ Hs), (hex_text_ok _ _ Ht).
  - rewrite Es. lia.
Qed.

(* ---- set ---- *)
Lemma has_key_other id ref id' ref' e : (id', ref') <> (id, ref) -> has_key id ref e = true -> has_key id' ref' e = false.
Proof.
  intros N H. apply has_key_entry in H. rewrite H. unfold has_key. cbn [e_id e_ref].
  destruct (Z.eqb_spec id id'), (Z.eqb_spec ref ref'); auto. subst. now elim N.
Qed.
Lemma find_with_value id ref v id' ref' l : (id', ref') <> (id, ref) -> find (has_key id' ref') (with_value id ref v l) = find (has_key id' ref') l.
Proof.
  intros N. induction l as [|e l IH]; [reflexivity|]. unfold with_value in *. cbn [map find]. destruct (has_key id ref e) eqn:E.
  - rewrite (has_key_other _ _ _ _ _ N E). rewrite (has_key_other id ref id' ref' (mkEntry id ref v) N); [exact IH|].
    unfold has_key. cbn. now rewrite !Z.eqb_refl.
  - now rewrite IH.
Qed.
Lemma find_app {A} (p : A -> bool) a b : find p (a ++ b) = match find p a with Some x => Some x | None => find p b end.
Proof. induction a as [|x a IH]; [reflexivity|]. cbn [app find]. destruct (p x); auto. Qed.
Lemma trunc_id c (b : list mentry) : Forall (fun y => zlen (e_val y) <= c) b -> map (trunc_entry c) b = b.
Proof.
  induction 1 as [|e b H _ IH]; [reflexivity|]. cbn [map]. rewrite IH. f_equal. unfold trunc_entry, del_value.
  rewrite ztake_all by exact H. destruct e as [i r v]; cbn [e_id e_ref e_val] in *. f_equal. unfold zeros.
  replace (Z.to_nat (zlen v - c)) with 0%nat by lia. cbn [repeat]. apply app_nil_r.
Qed.
(* a new value of [name] that does not cut anything *)
Definition roomy (w : world) (id : Z) (s : bytes) (enc : option bytes) : Prop :=
  forall a e b, w_metas w = a ++ e :: b -> has_key id 0 e = true ->
    enc <> None \/ zlen s + 1 <= zlen (e_val e) \/ Forall (fun y => zlen (e_val y) <= align8 (zlen (e_val e))) b.
Lemma set_frame sha f w name s enc f' out r m ref : good_hash sha -> stored sha f w -> fits w (CSetMeta name s enc) = true ->
  roomy w (bpak_id name) s enc -> run_cmd sha (CSetMeta name s enc) f = (f', out, r) ->
  fits w (CExtractMeta m ref) = true -> (arg_id m, ref_id arg_id ref) <> (bpak_id name, 0) ->
  snd (fst (run_cmd sha (CExtractMeta m ref) f')) = snd (fst (run_cmd sha (CExtractMeta m ref) f)).
Proof.
  intros G S F Ro R Fe Ne. pose proof (run_one sha _ f w G S F) as A. rewrite R in A. destruct A as (w' & S' & _ & Sc).
  destruct (Z.eqb_spec (arg_id m) 0) as [E0|E0].
  { cbn [run_cmd]. unfold cli_extract_meta. rewrite id_arg_spec, E0. reflexivity. }
  rewrite (extract_meta_by_id sha f w m ref G S Fe E0), (extract_meta_by_id sha f' w' m ref G S' Fe E0). cbn [fst snd].
  f_equal. unfold spec_set_meta in Sc. destruct (find (has_key (bpak_id name) 0) (w_metas w)) as [e|] eqn:Ef; [|injection Sc as -> _; reflexivity].
  assert (Wv : forall v, w' = set_metas w (with_value (bpak_id name) 0 v (w_metas w)) ->
     find (has_key (arg_id m) (ref_id arg_id ref)) (w_metas w') = find (has_key (arg_id m) (ref_id arg_id ref)) (w_metas w)).
  { intros v ->. cbn [set_metas w_metas]. now apply find_with_value. }
  destruct (is enc "integer"); [destruct (negb _); [|destruct (strtol0 s)]; injection Sc as E _; try (now apply (Wv _ E)); subst w'; reflexivity|].
  destruct (is enc "id"); [destruct (negb _); injection Sc as E _; try (now apply (Wv _ E)); subst w'; reflexivity|].
  destruct enc as [en|]; [injection Sc as -> _; reflexivity|].
  destruct (Z.leb_spec (zlen (s ++ [0])) (zlen (e_val e))) as [Le|Gt]; [injection Sc as E _; now apply (Wv _ E)|].
  destruct (1920 <? _); [injection Sc as -> _; reflexivity|]. injection Sc as -> _. cbn [set_metas w_metas].
  destruct (find_some _ _ Ef) as [Hin Hk]. apply in_split in Hin as (a & b & El).
  destruct (Ro a e b El Hk) as [C|[C|C]]; [congruence|rewrite zlen_app in Gt; change (zlen [0]) with 1 in Gt; exfalso; lia|].
  pose proof (has_key_entry _ _ _ Hk) as Ee. pose proof S as S2. apply stored_st in S2 as (p & _ & [_ M _]).
  pose proof (hm_nodup _ _ M) as Nd. pose proof (hm_values _ _ M) as Va. rewrite El, Ee in Nd, Va |- *. cbn [e_val] in *.
  rewrite (purge_one _ _ _ _ _ Nd Va), (trunc_id _ _ C), !find_app.
  assert (Hn : forall v, has_key (arg_id m) (ref_id arg_id ref) (mkEntry (bpak_id name) 0 v) = false).
  { intros v. apply (has_key_other (bpak_id name) 0); auto. unfold has_key. cbn. now rewrite !Z.eqb_refl. }
  cbn [find]. rewrite !Hn. destruct (find _ a); auto. now destruct (find _ b).
Qed.
(* and the new text is what is read afterwards *)
Lemma set_reads sha f w name s f' out m : good_hash sha -> stored sha f w -> fits w (CSetMeta name s None) = true ->
  run_cmd sha (CSetMeta name s None) f = (f', out, Ok tt) -> text m = true -> arg_id m = bpak_id name ->
  exists n, run_cmd sha (CExtractMeta m None) f' = (f', Some (s ++ [0] ++ zeros n), Ok tt).
Proof.
  intros G S F R Tm Em. pose proof (run_one sha _ f w G S F) as A. rewrite R in A. destruct A as (w' & S' & _ & Sc).
  cbn [fits] in F. apply andb_prop in F as [F _]. apply andb_prop in F as [F _]. destruct (is_name_ok name F) as [_ Nz].
  rewrite (extract_meta_by_id sha f' w' m None G S'); [|cbn [fits opt_text]; now rewrite Tm|congruence]. cbn [ref_id]. rewrite Em.
  unfold spec_set_meta in Sc. destruct (find (has_key (bpak_id name) 0) (w_metas w)) as [e|] eqn:Ef; [|discriminate].
  cbn [is] in Sc. destruct (stored_metas _ _ _ S') as [Nd' _].
  assert (X : forall v, In (mkEntry (bpak_id name) 0 v) (w_metas w') -> find (has_key (bpak_id name) 0) (w_metas w') = Some (mkEntry (bpak_id name) 0 v)).
  { intros v Hv. apply (find_key_unique _ (mkEntry (bpak_id name) 0 v)); auto. }
  destruct (_ <=? _).
  - injection Sc as ->. exists (zlen (e_val e) - zlen (s ++ [0])). rewrite (X ((s ++ [0]) ++ zeros (zlen (e_val e) - zlen (s ++ [0])))); [cbn [option_map e_val]; now rewrite <- app_assoc|].
    cbn [set_metas w_metas]. unfold with_value. destruct (find_some _ _ Ef) as [Hin Hk]. apply in_map_iff. exists e. split; [now rewrite Hk|exact Hin].
  - destruct (1920 <? _); [discriminate|]. injection Sc as ->. exists 0. rewrite (X (s ++ [0])); [cbn [option_map e_val]; now rewrite app_nil_r|].
    cbn [set_metas w_metas]. apply in_or_app. right. left. reflexivity.
Qed.

(* ---- integers ---- *)
Lemma integer_stored sha f w name s v f' out r m : good_hash sha -> stored sha f w -> fits w (CAddMeta name None (FromString s) (Some (bytes_of "integer"))) = true ->
  strtol0 s = Some v -> run_cmd sha (CAddMeta name None (FromString s) (Some (bytes_of "integer"))) f = (f', out, r) -> zlen s < 1920 ->
  text m = true -> arg_id m = bpak_id name -> r = Ok tt ->
  run_cmd sha (CExtractMeta m None) f' = (f', Some (le 8 (v mod 2^64)), Ok tt).
Proof.
  intros G S F Sv R Ls Tm Em ->. pose proof (run_one sha _ f w G S F) as A. rewrite R in A. destruct A as (w' & S' & _ & Sc).
  cbn [fits] in F. do 3 apply andb_prop in F as [F ?]. destruct (is_name_ok name F) as [_ Nz].
  rewrite (extract_meta_by_id sha f' w' m None G S'); [|cbn [fits opt_text]; now rewrite Tm|congruence]. cbn [ref_id]. rewrite Em.
  assert (Bn : before_nul (s ++ [0]) = s).
  { match goal with H : text s = true |- _ => revert H end. clear. unfold text. rewrite forallb_forall. intros H. induction s as [|c s IH]; [reflexivity|].
    cbn [app before_nul]. pose proof (H c (or_introl eq_refl)). destruct (Z.eqb_spec c 0); [subst; discriminate|]. f_equal. apply IH. intros x Hx. apply H. now right. }
  unfold meta_value in Sc. rewrite Bn in Sc. rewrite zlen_app in Sc. change (zlen [0]) with 1 in Sc. destruct (Z.ltb_spec 1920 (zlen s + 1)); [lia|].
  cbn [is] in Sc. change (bytes_eqb (bytes_of "integer") (bytes_of "uuid")) with false in Sc. change (bytes_eqb (bytes_of "integer") (bytes_of "integer")) with true in Sc. cbn iota in Sc.
  rewrite Sv in Sc. unfold spec_add_meta in Sc. cbn [ref_id] in Sc. destruct (existsb _ _) eqn:Ex; [discriminate|]. destruct (1920 <? _); [discriminate|]. injection Sc as ->.
  cbn [set_metas w_metas]. rewrite find_app.
  assert (Fn : find (has_key (bpak_id name) 0) (w_metas w) = None).
  { destruct (find _ _) eqn:E; [|reflexivity]. apply find_some in E. exfalso. apply Bool.not_true_iff_false in Ex. apply Ex. apply existsb_exists. eauto. }
  rewrite Fn. cbn [find]. unfold has_key. cbn [e_id e_ref]. rewrite !Z.eqb_refl. reflexivity.
Qed.
(* every command returns *)
Lemma spec_returns sha w c w' out r : spec_cmd sha w c w' out r -> r = Ok tt \/ exists e, r = Err e.
Proof.
  assert (A : forall w0 id ref v x y, (x, y) = spec_add_meta w0 id ref v -> y = Ok tt \/ exists e, y = Err e).
  { intros w0 id ref v x y. unfold spec_add_meta. destruct (existsb _ _); [|destruct (_ <? _)]; intros E; injection E as _ ->; eauto. }
  destruct c as [h s|name data dh|name data salt dh|name ref src enc|part enc dec|name s enc|key ks|part keep|keep|part|meta ref|sig]; cbn [spec_cmd].
  - intros [_ S]. destruct (hash_named h); [destruct (sign_named s)|]; destruct S as [_ ->]; eauto.
  - cbn [spec_pkg_op]. destruct (existsb _ _); [|destruct (_ <=? _)%nat]; intros (_ & _ & ->); eauto.
  - intros (ls & _ & _ & -> & _). auto.
  - intros [_ S]. destruct (meta_value src enc); try contradiction; [eauto|destruct S as [_ ->]; eauto].
  - intros (_ & stale & _ & S). eauto.
  - intros [_ S]. unfold spec_set_meta in S. destruct (find _ _) as [e|]; [|injection S as _ ->; eauto].
    destruct (is enc "integer"); [destruct (negb _); [|destruct (strtol0 s)]; injection S as _ ->; eauto|].
    destruct (is enc "id"); [destruct (negb _); injection S as _ ->; eauto|]. destruct enc; [injection S as _ ->; eauto|].
    cbv zeta in S. destruct (_ <=? _); [injection S as _ ->; eauto|]. destruct (_ <? _); injection S as _ ->; eauto.
  - intros [_ S]. destruct key, ks; destruct S as [? ?]; subst; eauto.
  - intros [_ S]. destruct (_ =? 0); [destruct S as [_ ->]; eauto|]. destruct (existsb _ _); destruct S as [? ?]; subst; eauto.
  - intros (_ & -> & _). auto.
  - intros [_ S]. destruct (_ =? 0); [destruct S as [_ ->]; eauto|]. destruct (find _ _); destruct S as [_ ->]; eauto.
  - intros [_ S]. destruct (_ =? 0); [destruct S as [_ ->]; eauto|]. destruct (find _ _); destruct S as [_ ->]; eauto.
  - intros [_ S]. destruct sig; destruct S as [? ?]; subst; eauto.
Qed.
