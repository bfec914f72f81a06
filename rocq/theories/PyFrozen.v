(* PyFrozen.v -- a package opened for reading, or closed, never changes its file *)
From Verif Require Import BaseLemmas HeaderModel HeaderSpec HeaderHistory CodecProofs PartProofs MetaProofs CrcModel CrcProofs HashModel MerkleModel
  VerifyModel VerifySpec VerifyProofs VerifySign VerifyWitness PkgModel PkgSpec PkgProofs PkgAdd PkgDelete PkgHistory PkgApi
  PyModel PySpec PyInv PyProofs PySession.

Definition blank (h : header) : Prop := h_hash_kind h = 0 /\ h_parts h = repeat zero_part 32.
Definition frozen (s : pyst) : Prop :=
  py_fp (st_obj s) = FpOpen false \/ (py_fp (st_obj s) = FpNull /\ blank (st_header s)).
Definition still (s s' : pyst) : Prop := frozen s' /\ st_file s' = st_file s.

Lemma still_refl s : frozen s -> still s s.
Proof. unfold still. auto. Qed.
Lemma frozen_pkg s p : frozen s -> (py_fp (st_obj s) = FpNull -> blank (pk_header p)) -> frozen (with_pkg s p).
Proof. intros [F|[F B]] H; [left; exact F|right; split; [exact F|apply H, F]]. Qed.
Lemma still_handles s hs : frozen s -> still s (with_handles s hs).
Proof. intros F. split; [exact F|reflexivity]. Qed.
Lemma still_pkg s p : frozen s -> (py_fp (st_obj s) = FpNull -> blank (pk_header p)) -> pk_file p = st_file s -> still s (with_pkg s p).
Proof. intros F B E. split; [now apply frozen_pkg|exact E]. Qed.
Lemma still_trans s s1 s2 : still s s1 -> still s1 s2 -> still s s2.
Proof. intros [A B] [C D]. split; [exact C|congruence]. Qed.
Lemma still_store s h v : frozen s -> still s (fst (store s h v)).
Proof.
  intros F. unfold store. destruct F as [E|[E B]]; rewrite E; cbn [fst].
  - apply still_pkg; auto; [left; exact E|]. rewrite E. discriminate.
  - apply still_refl. right. auto.
Qed.
Lemma still_call_c s x : frozen s -> (py_fp (st_obj s) = FpNull -> blank (pk_header (fst x)) \/ forall e, snd x <> Err e) -> pk_file (fst x) = st_file s ->
  still s (fst (call_c s x)).
Proof.
  intros F B E. unfold call_c. destruct (snd x) eqn:Ex.
  - destruct F as [Ef|[Ef Bl]]; rewrite Ef; cbn [fst].
    + apply still_pkg; auto; [left; exact Ef|]. rewrite Ef. discriminate.
    + apply still_refl. right. auto.
  - assert (X : still s (with_pkg s (fst x))).
    { apply still_pkg; auto. intros En. destruct (B En) as [H|H]; auto. elim (H e). reflexivity. }
    destruct (py_fp (st_obj s)); exact X.
  - destruct (py_fp (st_obj s)); now apply still_refl.
  - destruct (py_fp (st_obj s)); now apply still_refl.
Qed.

(* ---- frames ---- *)
Lemma update_hash_frame sha p r : pk_file (fst (pkg_update_hash sha p r)) = pk_file p /\
  h_hash_kind (pk_header (fst (pkg_update_hash sha p r))) = h_hash_kind (pk_header p) /\
  h_parts (pk_header (fst (pkg_update_hash sha p r))) = h_parts (pk_header p).
Proof. unfold pkg_update_hash. destruct (compute_payload_hash _ _ _ _ _); auto. destruct r; auto. Qed.
Lemma update_hash_kind0 sha p r : h_hash_kind (pk_header p) = 0 -> pkg_update_hash sha p r = (p, Err E_UNSUPPORTED_HASH_ALG).
Proof. intros E. unfold pkg_update_hash, compute_payload_hash. rewrite E. reflexivity. Qed.
Lemma del_meta_frame h i h' : del_meta h i = Ok h' -> h_hash_kind h' = h_hash_kind h /\ h_parts h' = h_parts h.
Proof.
  unfold del_meta. destruct (nth_error (h_meta h) i); [|discriminate].
  destruct (del_meta_loop _ _ _) as [[l md]| | |]; try discriminate. cbn [bind]. intros E. injection E as <-. auto.
Qed.
Lemma remove_meta_frame sel : forall fuel i h h', remove_meta_loop sel fuel i h = Ok h' ->
  h_hash_kind h' = h_hash_kind h /\ h_parts h' = h_parts h.
Proof.
  induction fuel as [|k IH]; intros i h h' E; cbn [remove_meta_loop] in E; [discriminate|].
  destruct (_ =? _)%nat; [injection E as <-; auto|]. destruct (nth_error (h_meta h) i) as [m|]; [|discriminate].
  destruct (sel m).
  - destruct (del_meta h i) as [h1| | |] eqn:E1; try discriminate. cbn [bind] in E. destruct (del_meta_frame _ _ _ E1). destruct (IH _ _ _ E). split; congruence.
  - eauto.
Qed.
Lemma add_meta_frame h id ref n : h_hash_kind (fst (add_meta h id ref n)) = h_hash_kind h /\ h_parts (fst (add_meta h id ref n)) = h_parts h.
Proof. unfold add_meta. destruct (add_meta_loop _ _ _ _ _). auto. Qed.
Lemma blank_get_part h id : h_parts h = repeat zero_part 32 -> get_part h id = if id =? 0 then Ok 0%nat else Err E_NOT_FOUND.
Proof.
  intros E. unfold get_part. rewrite E. destruct (Z.eqb_spec id 0) as [->|N]; [reflexivity|].
  replace (find_index (fun p => p_id p =? id) (repeat zero_part 32)) with (@None nat); [reflexivity|].
  symmetry. assert (X : forall n, find_index (fun p => p_id p =? id) (repeat zero_part n) = None).
  { induction n as [|n IH]; [reflexivity|]. cbn [repeat find_index zero_part p_id]. destruct (Z.eqb_spec 0 id); [congruence|]. now rewrite IH. }
  apply X.
Qed.
Lemma blank_add_part h id : h_parts h = repeat zero_part 32 -> id <> 0 -> exists h1, add_part h id = (h1, Ok 0%nat).
Proof.
  intros E N. unfold add_part. rewrite E. change (repeat zero_part 32) with (zero_part :: repeat zero_part 31). cbn [add_part_loop].
  change (p_id zero_part) with 0. destruct (Z.eqb_spec 0 id); [congruence|]. cbn [Z.eqb]. eexists. reflexivity.
Qed.
Lemma blank_delete sha p id : blank (pk_header p) ->
  let x := pkg_delete_part sha p id true in pk_file (fst x) = pk_file p /\ (blank (pk_header (fst x)) \/ forall e, snd x <> Err e).
Proof.
  intros [B1 B2]. cbv zeta. unfold pkg_delete_part. rewrite blank_get_part by auto. destruct (id =? 0).
  2:{ cbn [fst snd]. split; auto. left. split; auto. }
  rewrite B2. cbn [repeat nth_error].
  set (h := pk_header p) in *.
  assert (D : del_part h 0 = Ok (with_parts h (repeat zero_part 32))).
  { unfold del_part. rewrite B2. reflexivity. }
  rewrite D. cbn [h_parts with_parts repeat skipn shift_offsets zero_part p_id Z.eqb firstn app].
  destruct (remove_meta_loop _ _ _ _) as [h3| | |] eqn:E3.
  - destruct (remove_meta_frame _ _ _ _ _ E3) as [K3 P3]. cbn [h_hash_kind h_parts with_parts] in *.
    cbn [Z.div]. match goal with |- context [move_down_loop ?n ?f ?a ?b 0] => replace (move_down_loop n f a b 0) with (@Ok bytes f) end.
    2:{ destruct (Z.to_nat _); reflexivity. }
    unfold hash_and_write. rewrite update_hash_kind0 by (cbn [pk_header]; rewrite K3; exact B1). cbn [fst snd pk_file pk_header].
    split; auto. left. split; [rewrite K3; exact B1|exact P3].
  - cbn [fst snd pk_file pk_header]. split; auto. left. split; [exact B1|reflexivity].
  - cbn [fst snd pk_file]. split; auto. right. discriminate.
  - cbn [fst snd pk_file]. split; auto. right. discriminate.
Qed.
Lemma delete_ro_file sha p id : pk_file (fst (delete_part_ro sha p id)) = pk_file p.
Proof.
  unfold delete_part_ro. destruct (get_part _ _); auto. destruct (nth_error _ _); auto. destruct (del_part _ _); auto.
  destruct (shift_offsets _ _ _). destruct (remove_meta_loop _ _ _ _) as [h3| | |]; auto.
  destruct (_ >? 0); [destruct (_ <? 0); auto; destruct (_ =? 0); auto|].
  pose proof (update_hash_frame sha (mkPkg h3 (pk_file p)) None) as (X & _). destruct (pkg_update_hash _ _ _) as [p' []]; exact X.
Qed.
Lemma add_ro_file sha p d name : pk_file (fst (add_file_ro sha p d name)) = pk_file p.
Proof.
  unfold add_file_ro. destruct (add_part _ _) as [h1 [i| | |]]; auto.
  destruct (_ <? 0); auto. destruct (_ >? 0); auto.
  match goal with |- context [pkg_update_hash sha ?q None] => pose proof (update_hash_frame sha q None) as (X & _) end.
  destruct (pkg_update_hash _ _ _) as [p' []]; exact X.
Qed.

Ltac branch F := repeat match goal with
  | |- still ?s (fst (?s, _)) => exact (still_refl s F)
  | |- still ?s (fst (store ?s _ _)) => apply still_store; exact F
  | |- still _ (fst (match ?x with _ => _ end)) => destruct x
  end.
Lemma step_still sha s c : frozen s -> still s (fst (py_step sha s c)).
Proof.
  intros F. assert (Fo : forall k x, frozen (set_handle s k x)) by (intros; exact F).
  destruct c; cbn [py_step].
  - (* close *) unfold py_close. destruct F as [E|[E _]]; rewrite E; cbn [fst]; (split; [right; split; [reflexivity|split; reflexivity]|reflexivity]).
  - (* add_file *) unfold py_add_file. destruct data as [d|]; [|now apply still_refl]. cbv zeta.
    match goal with |- context [call_c s ?x] => pose proof (still_call_c s x F) as C; destruct (call_c s x) as [s1 [r|u]] eqn:Ec end.
    + cbn [fst] in *. apply C.
      * intros E. rewrite E. destruct F as [E'|[_ [B1 B2]]]; [congruence|].
        destruct (add_part _ _) as [h1 [i|e| |]] eqn:Ea; cbn [fst snd pk_header]; try (right; discriminate).
        left. unfold add_part in Ea. destruct (Z.eqb_spec (bpak_id name) 0) as [Z0|Z0].
        -- rewrite Z0 in Ea. fold (st_header s) in Ea. rewrite B2 in Ea. cbn in Ea. injection Ea as <- _. split; auto.
        -- fold (add_part (pk_header (py_pkg (st_obj s))) (bpak_id name)) in Ea. destruct (blank_add_part (st_header s) (bpak_id name) B2 Z0) as (h2 & E2).
           unfold st_header in E2. rewrite E2 in Ea. discriminate.
      * destruct F as [E|[E _]]; rewrite E; [apply add_ro_file|]. destruct (add_part _ _) as [h1 [|e| |]]; reflexivity.
    + cbn [fst] in C. assert (S1 : still s s1).
      { apply C.
        * intros E. unfold call_c in Ec. rewrite E in Ec. destruct (snd _); discriminate.
        * destruct F as [E|[E _]]; rewrite E; [apply add_ro_file|]. destruct (add_part _ _) as [h1 [|e| |]]; reflexivity. }
      destruct (get_part _ _); cbn [fst]; exact S1.
  - (* add_meta *) unfold py_add_meta. cbv zeta. destruct (_ || _); [now apply still_refl|].
    match goal with |- context [match ?x with inl _ => _ | inr _ => _ end] => destruct x as [e|[d n]] end; [now apply still_refl|].
    pose proof (add_meta_frame (st_header s) (u32 id) (u32 ref) (u16 n)) as [A1 A2].
    destruct (add_meta _ _ _ _) as [h1 [i|e| |]] eqn:Ea; cbn [fst] in *; try (now apply still_refl).
    + destruct (meta_write _ _ _ _) as [h2| | |]; try (now apply still_refl).
      pose proof (still_store s h2 VNone F) as S. destruct (store s h2 VNone) as [s1 []]; cbn [fst] in *; exact S.
    + apply still_pkg; auto. intros E. destruct F as [E'|[_ [B1 B2]]]; [congruence|]. split; cbn [pk_header]; congruence.
  - unfold py_get_part. branch F. now apply still_handles.
  - unfold py_get_meta. branch F. now apply still_handles.
  - (* digest *) unfold py_digest.
    pose proof (update_hash_frame sha (py_pkg (st_obj s)) (Some 128)) as (U1 & U2 & U3).
    assert (S : still s (with_pkg s (fst (pkg_update_hash sha (py_pkg (st_obj s)) (Some 128))))).
    { apply still_pkg; auto. intros E. destruct F as [E'|[_ [B1 B2]]]; [congruence|]. unfold blank. rewrite U2, U3. split; auto. }
    destruct (pkg_update_hash _ _ _) as [p [[d|]| | |]]; cbn [fst] in *; auto; try (now apply still_refl).
    destruct (py_fp (st_obj s)); cbn [fst]; auto; now apply still_refl.
  - now apply still_refl.
  - unfold py_set_attr. branch F.
  - now apply still_refl.
  - unfold py_set_signature.
    assert (X : forall sg ig, still s (fst (if zlen sg >? 512 then (s, Crash) else
        match store s (with_signature (st_header s) (splice 0 sg (zeros 512)) (u16 (zlen sg))) VNone with
        | (s', Exc XIO) => (s', if ig : bool then Val VNone else Exc XError) | x => x end))).
    { intros sg ig. destruct (_ >? 512); [now apply still_refl|].
      pose proof (still_store s (with_signature (st_header s) (splice 0 sg (zeros 512)) (u16 (zlen sg))) VNone F) as S.
      destruct (store _ _ _) as [s1 [v0|[]| |]]; exact S. }
    destruct v; try (now apply still_refl); first [exact (X _ false) | exact (X [] true)].
  - now apply still_refl.
  - now apply still_refl.
  - now apply still_handles.
  - now apply still_handles.
  - unfold on_any. branch F.
  - unfold on_any, py_set_id. branch F; exact (still_store (set_handle s _ _) _ _ F).
  - unfold on_meta. branch F.
  - unfold on_meta, py_set_ref. branch F; exact (still_store (set_handle s _ _) _ _ F).
  - unfold on_any. branch F.
  - unfold on_meta. branch F.
  - unfold on_meta, py_set_raw. branch F.
  - unfold on_meta. branch F.
  - unfold on_part. branch F.
  - unfold on_part. branch F.
  - unfold on_part. branch F.
  - unfold on_any, py_delete. destruct (nth_error _ _) as [[id ref|id]|]; [branch F| |now apply still_refl]. cbv zeta.
    match goal with |- context [call_c s ?x] => pose proof (still_call_c s x F) as C; destruct (call_c s x) as [s1 [r|u]] eqn:Ec end;
    (cbn [fst] in *; apply C; destruct F as [E|[E B]]; rewrite E).
    all: try discriminate; try (intros _); try (apply delete_ro_file); try (apply (blank_delete sha (py_pkg (st_obj s)) id B)).
Qed.
Theorem run_still sha cs : forall s, frozen s -> still s (fst (py_run sha s cs)).
Proof.
  induction cs as [|c cs IH]; intros s F; cbn [py_run]; [now apply still_refl|].
  pose proof (step_still sha s c F) as S. destruct (py_step sha s c) as [s1 r]. cbn [fst] in S. specialize (IH s1 (proj1 S)).
  destruct r; try exact S; destruct (py_run sha s1 cs) as [s2 xs]; exact (still_trans _ _ _ S IH).
Qed.
