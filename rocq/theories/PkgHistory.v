(* PkgHistory.v -- packages under any sequence of operations *)
From Verif Require Import BaseLemmas HeaderModel HeaderSpec CodecProofs PartProofs MetaProofs CrcModel CrcProofs HashModel MerkleModel
  VerifyModel VerifySpec VerifyProofs VerifySign VerifyWitness PkgModel PkgSpec PkgProofs PkgAdd PkgDelete.

(* one API call on an open package *)
Definition run_pkg_op (sha : hashfn) (p : pkg) (o : pkg_op) : pkg * option bytes * res unit :=
  match o with
  | OAdd name data flags => let (p', r) := pkg_add_file sha p data name flags in (p', None, r)
  | ODel id rm => let (p', r) := pkg_delete_part sha p id rm in (p', None, r)
  | ODelAll rm => let (p', r) := pkg_delete_all_parts sha p rm in (p', None, r)
  | OExtract id => let (out, r) := pkg_extract_file p id in (p, out, r)
  end.
Fixpoint run_pkg_ops (sha : hashfn) (p : pkg) (os : list pkg_op) : pkg * list (option bytes * res unit) :=
  match os with
  | [] => (p, [])
  | o :: r =>
      let '(p1, x, y) := run_pkg_op sha p o in
      let (p2, xs) := run_pkg_ops sha p1 r in (p2, (x, y) :: xs)
  end.

Definition pkg_op_ok (o : pkg_op) : Prop :=
  match o with
  | OAdd name _ flags => bytes_ok name /\ bpak_id name <> 0 /\ 0 <= flags < 256 /\ Z.testbit flags 1 = false
  | ODel id _ => id <> 0
  | ODelAll _ => True
  | OExtract id => id <> 0
  end.
Definition pkg_op_cost (o : pkg_op) : Z :=
  match o with OAdd _ data _ => zlen data + 512 | _ => 0 end.
Definition pkg_ops_cost (os : list pkg_op) : Z := fold_right (fun o a => pkg_op_cost o + a) 0 os.

Definition meta_sane (h : header) : Prop := exists live,
  metas_are (h_meta h) (h_metadata h) live /\ (length live < 32)%nat /\ no_ghost_refs (h_meta h).
Definition file_matches (f : fentry) (e : parth * bytes) : Prop :=
  snd e = file_stored f /\
  p_id (fst e) = f_id f /\ p_flags (fst e) = f_flags f /\
  p_size (fst e) = zlen (f_data f) /\ p_pad_bytes (fst e) = padding (zlen (f_data f)).
Definition files_covered (fs : list fentry) : bytes :=
  concat (map file_stored (filter (fun f => negb (Z.testbit (f_flags f) 0)) fs)).
(* what every reachable package satisfies *)
Record pkg_inv (sha : hashfn) (p : pkg) (fs : list fentry) : Prop := {
  pi_files : pkg_files p fs;
  pi_plain : Forall (fun f => Z.testbit (f_flags f) 1 = false) fs;
  pi_valid : valid_header (pk_header p) = Ok tt;
  pi_hash : hash_supported (h_hash_kind (pk_header p)) = true;
  pi_meta : meta_sane (pk_header p);
  pi_digest : slice 0 (digest_len (h_hash_kind (pk_header p))) (h_payload_hash (pk_header p)) =
              sha (h_hash_kind (pk_header p)) (files_covered fs) }.

Lemma files_covered_eq fs es : Forall2 file_matches fs es -> covered es = files_covered fs.
Proof.
  unfold covered, files_covered. induction 1 as [|f e fs es (H1 & H2 & H3 & H4) _ IH]; [reflexivity|].
  cbn [filter]. unfold excluded at 1. rewrite H3. destruct (Z.testbit (f_flags f) 0); cbn [negb]; auto.
  cbn [map concat]. rewrite H1, IH. reflexivity.
Qed.
Lemma plain_of fs es : Forall2 file_matches fs es -> Forall (fun f => Z.testbit (f_flags f) 1 = false) fs -> plain es.
Proof.
  unfold plain. induction 1 as [|f e fs es (H1 & H2 & H3 & H4) _ IH]; intros P; [constructor|].
  inversion P; subst. constructor; auto. now rewrite H3.
Qed.
Lemma ids_of fs es : Forall2 file_matches fs es -> map (fun e : parth * bytes => p_id (fst e)) es = map f_id fs.
Proof. induction 1 as [|f e fs es (H1 & H2 & H3) _ IH]; [reflexivity|]. cbn [map]. now rewrite H2, IH. Qed.
Lemma existsb_id id fs : existsb (fun f => f_id f =? id) fs = true <-> In id (map f_id fs).
Proof.
  rewrite existsb_exists, in_map_iff. split; intros (f & A & B); exists f; split; auto; now apply Z.eqb_eq.
Qed.
Lemma offsets_app (es1 es2 : list (parth * bytes)) : forall pos, offsets_from pos (es1 ++ es2) <->
  offsets_from pos es1 /\ offsets_from (pos + zlen (concat (map snd es1))) es2.
Proof.
  induction es1 as [|e es1 IH]; intros pos; cbn [app offsets_from map concat].
  - rewrite zlen_nil, Z.add_0_r. tauto.
  - rewrite IH, zlen_app, Z.add_assoc. tauto.
Qed.
Lemma offsets_moved n : forall (b : list (parth * bytes)) pos, 0 <= pos -> 0 <= n -> pos + n + zlen (concat (map snd b)) < 2^63 ->
  offsets_from (pos + n) b -> offsets_from pos (map (moved n) b).
Proof.
  induction b as [|e b IH]; intros pos Hp Hn Hb; cbn [map offsets_from]; auto.
  cbn [map concat] in Hb. rewrite zlen_app in Hb. intros [E R].
  pose proof (zlen_nonneg (snd e)). pose proof (zlen_nonneg (concat (map snd b))).
  cbn [moved fst snd set_p_offset p_offset]. split.
  - rewrite E. unfold u64. rewrite Z.mod_small by lia. lia.
  - apply IH; try lia. replace (pos + zlen (snd e) + n) with (pos + n + zlen (snd e)) by lia. exact R.
Qed.
Lemma moved_matches n fs es : Forall2 file_matches fs es -> Forall2 file_matches fs (map (moved n) es).
Proof. induction 1; constructor; auto. Qed.

(* a package that holds aligned parts and sane metadata has a valid header *)
Lemma metas_are_in_bounds h live : metas_are (h_meta h) (h_metadata h) live -> metas_in_bounds h.
Proof.
  intros M. unfold metas_in_bounds. pose proof M as (M1 & _ & M3 & _ & M5 & M6 & M7).
  apply Forall_forall. intros m Hm.
  assert (X : forall (l : list metah) k, length l = (32 - k)%nat -> (k <= 32)%nat ->
    (forall i, nth_error l i = nth_error (h_meta h) (k + i)) ->
    In m (until_empty m_id l) -> exists i, nth_error (h_meta h) i = Some m /\ (i < length live)%nat).
  { clear Hm. induction l as [|x l IH]; intros k Hl Hk Hn; [contradiction|]. cbn [until_empty length] in *.
    destruct (Z.eqb_spec (m_id x) 0) as [E|E]; [contradiction|].
    intros [<-|Hin].
    - exists k. specialize (Hn 0%nat). rewrite Nat.add_0_r in Hn. cbn [nth_error] in Hn. split; auto.
      destruct (Nat.lt_ge_cases k (length live)); auto. destruct (M7 k) as (y & Hy & Ey); [lia|]. congruence.
    - apply (IH (S k)); auto; try lia. intros i. specialize (Hn (S i)). cbn [nth_error] in Hn.
      rewrite Hn. f_equal. lia. }
  destruct (X (h_meta h) 0%nat) as (i & Hi & Hlt); auto; try lia.
  destruct (nth_error live i) as [e|] eqn:He.
  2:{ apply nth_error_None in He. lia. }
  destruct (M6 i e He) as (B & _ & m' & Hm' & _ & _ & E3 & E4). rewrite Hi in Hm'. injection Hm' as <-. lia.
Qed.
Lemma holds_aligned p es : holds p es -> (forall e, In e es -> (p_size (fst e) + p_pad_bytes (fst e)) mod 512 = 0) ->
  parts_aligned (pk_header p).
Proof.
  intros H A. unfold parts_aligned. rewrite (ho_table _ _ H).
  assert (U : forall (l : list (parth * bytes)) r, Forall (fun e : parth * bytes => p_id (fst e) <> 0) l -> Forall (fun q => p_id q = 0) r ->
     until_empty p_id (map fst l ++ r) = map fst l).
  { induction l as [|e l IH]; intros r N Z; cbn [map app until_empty].
    - destruct r; [reflexivity|]. inversion Z; subst. cbn [until_empty]. replace (p_id p0 =? 0) with true by lia. reflexivity.
    - inversion N; subst. destruct (Z.eqb_spec (p_id (fst e)) 0); [contradiction|]. now rewrite IH. }
  rewrite U by (try apply table_empty_zero; apply (ho_nonzero _ _ H)).
  apply Forall_map. apply Forall_forall. intros e He. specialize (A e He).
  change (2^64) with (512 * 36028797018963968). rewrite <- Znumtheory.Zmod_div_mod; try lia. exists 36028797018963968. lia.
Qed.
Lemma matches_aligned fs es : Forall2 file_matches fs es ->
  forall e, In e es -> (p_size (fst e) + p_pad_bytes (fst e)) mod 512 = 0.
Proof.
  induction 1 as [|f x fs es (H1 & H2 & H3 & H4 & H5) _ IH]; intros e; [contradiction|].
  intros [<-|Hin]; auto. rewrite H4, H5. apply padding_aligned.
Qed.

Lemma Forall2_split {A B} (R : A -> B -> Prop) la lb a1 x a2 : Forall2 R la lb -> la = a1 ++ x :: a2 ->
  exists b1 y b2, lb = b1 ++ y :: b2 /\ Forall2 R a1 b1 /\ R x y /\ Forall2 R a2 b2.
Proof.
  intros F ->. apply Forall2_app_inv_l in F as (b1 & b2 & F1 & F2 & ->).
  inversion F2; subst. exists b1, y, l'. auto.
Qed.
Lemma first_with_id id fs : In id (map f_id fs) ->
  exists a f b, fs = a ++ f :: b /\ f_id f = id /\ Forall (fun g => f_id g <> id) a.
Proof.
  induction fs as [|g fs IH]; [contradiction|]. cbn [map]. intros Hin.
  destruct (Z.eq_dec (f_id g) id).
  - exists [], g, fs. auto.
  - destruct Hin as [?|Hin]; [contradiction|]. destruct (IH Hin) as (a & f & b & -> & E & Fa).
    exists (g :: a), f, b. auto.
Qed.
Lemma filter_first id a f b : f_id f = id -> NoDup (map f_id (a ++ f :: b)) ->
  filter (fun g => negb (f_id g =? id)) (a ++ f :: b) = a ++ b.
Proof.
  intros E N. rewrite map_app in N. cbn [map] in N. apply NoDup_remove_2 in N. rewrite filter_app. cbn [filter].
  rewrite E, Z.eqb_refl. cbn [negb].
  assert (X : forall l, ~ In (f_id f) (map f_id l) -> filter (fun g => negb (f_id g =? id)) l = l).
  { induction l as [|g l IH]; intros Hn; [reflexivity|]. cbn [filter]. cbn [map] in Hn.
    destruct (Z.eqb_spec (f_id g) id) as [e|e]; [elim Hn; left; congruence|]. cbn [negb]. f_equal. apply IH.
    intros Hin. apply Hn. now right. }
  rewrite !X; auto; intros Hin; apply N; apply in_or_app; auto.
Qed.
Lemma find_first id a f b : f_id f = id -> Forall (fun g => f_id g <> id) a ->
  find (fun g => f_id g =? id) (a ++ f :: b) = Some f.
Proof.
  intros E Fa. induction Fa as [|g a Hg _ IH]; cbn [app find].
  - rewrite E, Z.eqb_refl. reflexivity.
  - destruct (Z.eqb_spec (f_id g) id); [contradiction|]. exact IH.
Qed.

Lemma inv_build sha p p' fs es : valid_header (pk_header p) = Ok tt -> hash_supported (h_hash_kind (pk_header p)) = true ->
  h_magic (pk_header p') = h_magic (pk_header p) -> h_hash_kind (pk_header p') = h_hash_kind (pk_header p) ->
  meta_sane (pk_header p') -> holds p' es -> offsets_from 4096 es -> Forall2 file_matches fs es ->
  Forall (fun f => Z.testbit (f_flags f) 1 = false) fs -> hash_current sha p' es -> pkg_inv sha p' fs.
Proof.
  intros V Hs Em Ek M H O F P D. apply valid_header_iff in V as (V1 & _ & _ & V4).
  constructor; auto.
  - exists es. split; [exact H|]. split; [exact O|]. exact F.
  - apply valid_header_iff. split; [congruence|]. split; [|split; [|congruence]].
    + eapply holds_aligned; eauto. eapply matches_aligned; eauto.
    + destruct M as (live & M & _). eapply metas_are_in_bounds; eauto.
  - now rewrite Ek.
  - rewrite <- (files_covered_eq _ _ F). exact D.
Qed.

Lemma pkg_files_bound sha p fs : pkg_inv sha p fs -> 4096 <= zlen (pk_file p) < 2^63.
Proof.
  intros [(es & H & _) _ _ _ _ _]. pose proof (ho_bound _ _ H). rewrite (ho_file _ _ H), zlen_app, zlen_enc_header in * by apply (ho_wf _ _ H).
  pose proof (zlen_nonneg (concat (map snd es))). lia.
Qed.

Lemma purge_length sel l : forall cut, (length (purge sel cut l) <= length l)%nat.
Proof.
  induction l as [|x l IH]; intros c; cbn [purge length]; [lia|].
  destruct (sel x); cbn [length]; [specialize (IH (Z.min c (align8 (zlen (e_val x)))))|specialize (IH c)]; lia.
Qed.

Theorem pkg_step sha p fs o : good_hash sha -> pkg_inv sha p fs -> pkg_op_ok o -> zlen (pk_file p) + pkg_op_cost o <= 2^63 ->
  let '(p', x, y) := run_pkg_op sha p o in
  let '(fs', x', y') := spec_pkg_op bpak_id fs o in
  x = x' /\ y = y' /\ pkg_inv sha p' fs' /\ zlen (pk_file p') <= zlen (pk_file p) + pkg_op_cost o.
Proof.
  intros G I Ok Hb. pose proof I as [(es & H & O & F) P V Hs M D].
  assert (Ndf : NoDup (map f_id fs)) by (rewrite <- (ids_of _ _ F); apply (ho_distinct _ _ H)).
  destruct o as [name data flags|id rm|rm|id]; cbn [run_pkg_op spec_pkg_op pkg_op_ok pkg_op_cost] in *.
  - destruct Ok as (On & Oid & Of & Ot).
    destruct (add_file_fails sha p es data name flags H Oid) as [A1 A2]. rewrite (ids_of _ _ F) in A1, A2.
    destruct (existsb (fun f => f_id f =? bpak_id name) fs) eqn:Ex.
    + apply existsb_id in Ex. rewrite (A1 Ex). split; auto. split; auto. split; auto.
      pose proof (zlen_nonneg data). lia.
    + assert (Nin : ~ In (bpak_id name) (map f_id fs)) by (intros C; apply existsb_id in C; congruence).
      assert (Le : length fs = length es) by (clear - F; induction F; cbn [length]; congruence).
      pose proof (ho_count _ _ H) as Hc. destruct (Nat.leb_spec 32 (length fs)).
      * rewrite (A2 Nin) by lia. split; auto. split; auto. split; auto. pose proof (zlen_nonneg data). lia.
      * pose proof (padding_range (zlen data)).
        destruct (add_file_ok sha p es data name flags) as (p' & E & H' & Sb & D'); auto.
        { eapply plain_of; eauto. }
        { now rewrite (ids_of _ _ F). }
        { lia. }
        { lia. }
        rewrite E. split; auto. split; auto.
        pose proof (zlen_enc_header _ (ho_wf _ _ H)) as L1. pose proof (zlen_enc_header _ (ho_wf _ _ H')) as L2.
        assert (Lf : zlen (pk_file p) = 4096 + zlen (concat (map snd es))).
        { rewrite (ho_file _ _ H), zlen_app. lia. }
        split.
        -- eapply (inv_build sha p p' _ (es ++ [_])); eauto.
           ++ rewrite Sb. reflexivity.
           ++ rewrite Sb. reflexivity.
           ++ destruct M as (live & M1 & M2). exists live. rewrite Sb. auto.
           ++ apply offsets_app. split; auto. cbn [offsets_from fst new_part p_offset]. split; auto.
           ++ apply Forall2_app; auto. constructor; [|constructor]. unfold file_matches, file_stored, new_part.
              cbn [fst snd f_data f_id f_flags p_id p_flags p_size p_pad_bytes]. auto.
           ++ apply Forall_app. split; auto.
        -- rewrite (ho_file _ _ H'), zlen_app, map_app, concat_app, zlen_app. cbn [map snd concat].
           rewrite app_nil_r, zlen_app, zlen_zeros. lia.
  - destruct (existsb (fun f => f_id f =? id) fs) eqn:Ex.
    + apply existsb_id in Ex. destruct (first_with_id _ _ Ex) as (fa & f & fb & Ef & Eid & Fa).
      destruct (Forall2_split _ _ _ _ _ _ F Ef) as (a & [q c] & b & -> & F1 & (Fq1 & Fq2 & Fq3) & F2).
      cbn [fst snd] in Fq1, Fq2. rewrite Eid in Fq2. subst id.
      destruct M as (live & M1 & M2 & M3).
      destruct (delete_part_ok sha p a q c b rm live) as (p' & E & H' & D' & X1 & X2); auto.
      rewrite Fq2 in E. rewrite E. split; auto. split; auto.
      pose proof (zlen_enc_header _ (ho_wf _ _ H)) as L1. pose proof (zlen_enc_header _ (ho_wf _ _ H')) as L2.
      assert (Lf : zlen (pk_file p) = 4096 + zlen (concat (map snd (a ++ (q, c) :: b)))).
      { rewrite (ho_file _ _ H), zlen_app. lia. }
      rewrite map_app, concat_app in Lf. cbn [map concat snd] in Lf. rewrite !zlen_app in Lf.
      pose proof (zlen_nonneg (concat (map snd a))). pose proof (zlen_nonneg c). pose proof (zlen_nonneg (concat (map snd b))).
      pose proof (ho_bound _ _ H) as B.
      split.
      * rewrite Ef, filter_first; auto.
        2:{ rewrite <- Ef. exact Ndf. }
        eapply (inv_build sha p p' _ (a ++ map (moved (zlen c)) b)); eauto.
        -- destruct rm; [destruct (X2 eq_refl) as [X _]|pose proof (X1 eq_refl) as X]; rewrite X; reflexivity.
        -- destruct rm; [destruct (X2 eq_refl) as [X _]|pose proof (X1 eq_refl) as X]; rewrite X; reflexivity.
        -- destruct rm.
           ++ destruct (X2 eq_refl) as (_ & X3 & X4). eexists. split; [exact X3|]. split; auto.
              eapply Nat.le_lt_trans; [apply purge_length|exact M2].
           ++ pose proof (X1 eq_refl) as X. exists live. rewrite X. auto.
        -- apply offsets_app. apply offsets_app in O as [O1 O2]. split; auto. cbn [offsets_from snd] in O2.
           destruct O2 as [_ O2]. apply offsets_moved; auto; lia.
        -- apply Forall2_app; auto. now apply moved_matches.
        -- rewrite Ef in P. apply Forall_app in P as [P1 P2]. inversion P2; subst. apply Forall_app; auto.
      * rewrite (ho_file _ _ H'), zlen_app, map_app, concat_app, zlen_app, moved_snd. lia.
    + assert (Nin : ~ In id (map f_id fs)) by (intros C; apply existsb_id in C; congruence).
      rewrite (delete_part_missing sha p es id rm); auto.
      * split; auto. split; auto. split; auto. lia.
      * now rewrite (ids_of _ _ F).
  - destruct M as (live & M1 & M2 & M3). pose proof (pkg_files_bound _ _ _ I) as Bf.
    destruct (delete_all_ok sha p rm live) as (p' & E & H' & L' & D' & X1 & X2); auto.
    { apply (ho_wf _ _ H). }
    { lia. }
    rewrite E. split; auto. split; auto. split; [|lia].
    eapply (inv_build sha p p' _ []); eauto.
    + destruct rm; [destruct (X2 eq_refl) as [X _]|pose proof (X1 eq_refl) as X]; rewrite X; reflexivity.
    + destruct rm; [destruct (X2 eq_refl) as [X _]|pose proof (X1 eq_refl) as X]; rewrite X; reflexivity.
    + destruct rm.
      * destruct (X2 eq_refl) as (_ & X3 & X4). eexists. split; [exact X3|]. split; auto.
        eapply Nat.le_lt_trans; [apply purge_length|exact M2].
      * pose proof (X1 eq_refl) as X. exists live. rewrite X. auto.
  - destruct (in_dec Z.eq_dec id (map f_id fs)) as [Hin|Nin].
    + destruct (first_with_id _ _ Hin) as (fa & f & fb & Ef & Eid & Fa).
      rewrite Ef, (find_first id); auto.
      destruct (Forall2_split _ _ _ _ _ _ F Ef) as (a & [q c] & b & -> & F1 & (Fq1 & Fq2 & Fq3 & Fq4 & Fq5) & F2).
      cbn [fst snd] in *. unfold file_stored in Fq1. subst c.
      rewrite <- Eid, <- Fq2. rewrite (extract_at p a q (f_data f) _ b H).
      * split; auto. split; auto. rewrite <- Ef. split; auto. lia.
      * rewrite Fq3. rewrite Ef in P. apply Forall_app in P as [_ P2]. inversion P2; auto.
      * auto.
    + unfold pkg_extract_file. rewrite (get_part_none p es id); auto; [|now rewrite (ids_of _ _ F)].
      replace (find (fun f => f_id f =? id) fs) with (@None fentry).
      * split; auto. split; auto. split; auto. lia.
      * symmetry. destruct (find _ fs) as [g|] eqn:Ef; auto. apply find_some in Ef as [Hg E].
        apply Z.eqb_eq in E. elim Nin. rewrite <- E. now apply in_map.
Qed.

Lemma pkg_ops_cost_nonneg os : 0 <= pkg_ops_cost os.
Proof.
  induction os as [|o os IH]; [cbn; lia|]. unfold pkg_ops_cost in *. cbn [fold_right].
  assert (0 <= pkg_op_cost o) by (destruct o; cbn [pkg_op_cost]; try lia; pose proof (zlen_nonneg data); lia). lia.
Qed.
Theorem pkg_history sha os : good_hash sha -> forall p fs, pkg_inv sha p fs -> Forall pkg_op_ok os ->
  zlen (pk_file p) + pkg_ops_cost os <= 2^63 ->
  let '(p', xs) := run_pkg_ops sha p os in
  let '(fs', ys) := spec_pkg_ops bpak_id fs os in
  xs = ys /\ pkg_inv sha p' fs'.
Proof.
  intros G. induction os as [|o os IH]; intros p fs I Ok Hb; cbn [run_pkg_ops spec_pkg_ops]; auto.
  inversion Ok as [|? ? O1 O2]; subst. unfold pkg_ops_cost in *. cbn [fold_right] in Hb.
  pose proof (pkg_ops_cost_nonneg os) as Hc. unfold pkg_ops_cost in Hc.
  pose proof (pkg_step sha p fs o G I O1 ltac:(lia)) as St.
  destruct (run_pkg_op sha p o) as [[p1 x] y]. destruct (spec_pkg_op bpak_id fs o) as [[fs1 x'] y'].
  destruct St as (-> & -> & I1 & L1). specialize (IH p1 fs1 I1 O2 ltac:(lia)).
  destruct (run_pkg_ops sha p1 os) as [p2 xs]. destruct (spec_pkg_ops bpak_id fs1 os) as [fs2 ys].
  destruct IH as [-> I2]. auto.
Qed.
