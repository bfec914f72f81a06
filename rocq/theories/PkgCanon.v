(* PkgCanon.v -- a package file is determined by its contents, not by the
   calls that led to them *)
From Verif Require Import BaseLemmas HeaderModel HeaderSpec HeaderHistory CodecProofs PartProofs MetaProofs CrcModel CrcProofs HashModel MerkleModel MerkleApi
  VerifyModel VerifySpec VerifyProofs VerifySign PkgModel PkgSpec PkgProofs PkgAdd PkgDelete PkgHistory PkgApi PkgForget.
Local Open Scope Z_scope.

(* part table entries without transport size and with zero padding fields *)
Definition clean (h : header) : Prop := Forall (fun q => p_transport_size q = 0 /\ p_pad q = 0) (h_parts h).
(* calls that do not touch metadata *)
Definition keeps_meta (o : pkg_op) : bool := match o with ODel _ rm | ODelAll rm => negb rm | _ => true end.

Lemma matches_unique fs : forall (es1 es2 : list (parth * bytes)) pos,
  Forall2 file_matches fs es1 -> Forall2 file_matches fs es2 -> offsets_from pos es1 -> offsets_from pos es2 ->
  Forall (fun q => p_transport_size q = 0 /\ p_pad q = 0) (map fst es1) ->
  Forall (fun q => p_transport_size q = 0 /\ p_pad q = 0) (map fst es2) -> es1 = es2.
Proof.
  induction fs as [|f fs IH]; intros es1 es2 pos F1 F2 O1 O2 C1 C2.
  - inversion F1; inversion F2; subst; reflexivity.
  - inversion F1 as [|x1 [q1 c1] y1 t1 M1 N1]; inversion F2 as [|x2 [q2 c2] y2 t2 M2 N2]; subst.
    cbn [map fst] in C1, C2. apply Forall_cons_iff in C1 as [[C1 D1] C1']. apply Forall_cons_iff in C2 as [[C2 D2] C2'].
    cbn [offsets_from fst snd] in O1, O2. destruct O1 as [O1 O1'], O2 as [O2 O2'].
    destruct M1 as (A1 & A2 & A3 & A4 & A5), M2 as (B1 & B2 & B3 & B4 & B5). cbn [fst snd] in *.
    subst c1 c2. assert (Et : t1 = t2) by (exact (IH t1 t2 (pos + zlen (file_stored f)) N1 N2 O1' O2' C1' C2')).
    assert (Eq : q1 = q2); [|congruence]. clear - C1 D1 C2 D2 O1 O2 A2 A3 A4 A5 B2 B3 B4 B5.
    destruct q1 as [a1 a2 a3 a4 a5 a6 a7], q2 as [b1 b2 b3 b4 b5 b6 b7]; cbn [p_id p_size p_offset p_transport_size p_pad_bytes p_flags p_pad] in *.
    f_equal; congruence.
Qed.

Theorem same_contents sha p1 p2 fs : good_hash sha -> pkg_inv sha p1 fs -> pkg_inv sha p2 fs -> clean (pk_header p1) -> clean (pk_header p2) ->
  same_besides_parts (pk_header p1) (pk_header p2) -> tail (pk_header p1) = tail (pk_header p2) -> p1 = p2.
Proof.
  intros G [(es1 & H1 & O1 & F1) _ _ Hs1 _ D1] [(es2 & H2 & O2 & F2) _ _ Hs2 _ D2] C1 C2 Sb T.
  unfold clean in C1, C2. rewrite (ho_table _ _ H1) in C1. rewrite (ho_table _ _ H2) in C2.
  apply Forall_app in C1 as [C1 _]. apply Forall_app in C2 as [C2 _].
  pose proof (matches_unique fs es1 es2 4096 F1 F2 O1 O2 C1 C2). subst es2.
  assert (K : h_hash_kind (pk_header p2) = h_hash_kind (pk_header p1)) by (rewrite Sb; reflexivity).
  assert (P : h_payload_hash (pk_header p1) = h_payload_hash (pk_header p2)).
  { apply payload_eq; try (apply (wf_payload_hash _ (ho_wf _ _ H1))); try (apply (wf_payload_hash _ (ho_wf _ _ H2))); congruence. }
  assert (Hh : pk_header p1 = pk_header p2).
  { rewrite Sb, <- P, (ho_table _ _ H2), <- (ho_table _ _ H1). destruct (pk_header p1); reflexivity. }
  assert (Hf : pk_file p1 = pk_file p2) by (rewrite (ho_file _ _ H1), (ho_file _ _ H2), Hh; reflexivity).
  destruct p1 as [x1 y1], p2 as [x2 y2]; cbn [pk_header pk_file] in *. now rewrite Hh, Hf.
Qed.

Lemma sbp_refl h : same_besides_parts h h.
Proof. destruct h; reflexivity. Qed.
Lemma sbp_trans a b c : same_besides_parts a b -> same_besides_parts b c -> same_besides_parts a c.
Proof. unfold same_besides_parts. intros A B. rewrite B, A. reflexivity. Qed.
Lemma sbp_sym a b : same_besides_parts a b -> same_besides_parts b a.
Proof. unfold same_besides_parts. intros A. rewrite A. destruct a; reflexivity. Qed.
Lemma clean_zero n : Forall (fun q => p_transport_size q = 0 /\ p_pad q = 0) (repeat zero_part n).
Proof. apply Forall_forall. intros q Hq. apply repeat_spec in Hq as ->. split; reflexivity. Qed.
Lemma clean_holds p es : holds p es -> (clean (pk_header p) <-> Forall (fun q => p_transport_size q = 0 /\ p_pad q = 0) (map fst es)).
Proof.
  intros H. unfold clean. rewrite (ho_table _ _ H), Forall_app. split; [now intros [? _]|]. intros A. split; [exact A|apply clean_zero].
Qed.
Lemma delete_all_tail sha p p' : good_hash sha -> zlen (h_payload_hash (pk_header p)) = 64 -> pkg_delete_all_parts sha p false = (p', Ok tt) ->
  tail (pk_header p') = tail (pk_header p).
Proof.
  intros G L. unfold pkg_delete_all_parts. cbv zeta. 
  match goal with |- context [hash_and_write sha ?x] => destruct (hash_and_write sha x) as [p1 [u| | |]] eqn:Hw end; try discriminate.
  intros X. injection X as <-. destruct u. cbn [pk_header].
  apply (hash_and_write_tail sha _ _ _ G) in Hw; [|exact L]. rewrite Hw. reflexivity.
Qed.

Lemma canon_step sha p fs o : good_hash sha -> pkg_inv sha p fs -> pkg_op_ok o -> keeps_meta o = true ->
  zlen (pk_file p) + pkg_op_cost o <= 2^63 -> clean (pk_header p) ->
  let p' := fst (fst (run_pkg_op sha p o)) in
  same_besides_parts (pk_header p) (pk_header p') /\ tail (pk_header p') = tail (pk_header p) /\ clean (pk_header p').
Proof.
  intros G I Ok Km Hb C. pose proof I as [(es & H & O & F) P V Hs M D].
  assert (Id : same_besides_parts (pk_header p) (pk_header p) /\ tail (pk_header p) = tail (pk_header p) /\ clean (pk_header p)).
  { split; [apply sbp_refl|auto]. }
  destruct o as [name data flags|id rm|rm|id]; cbn [run_pkg_op pkg_op_ok pkg_op_cost keeps_meta] in *.
  - destruct Ok as (On & Oid & Of & Ot).
    destruct (add_file_fails sha p es data name flags H Oid) as [A1 A2]. rewrite (ids_of _ _ F) in A1, A2.
    destruct (in_dec Z.eq_dec (bpak_id name) (map f_id fs)) as [Hin|Nin].
    + rewrite (A1 Hin). exact Id.
    + pose proof (ho_count _ _ H) as Hc. destruct (Nat.leb_spec 32 (length es)).
      * rewrite (A2 Nin) by lia. exact Id.
      * pose proof (padding_range (zlen data)).
        destruct (add_file_ok sha p es data name flags) as (p' & E & H' & Sb & D'); auto.
        { eapply plain_of; eauto. }
        { now rewrite (ids_of _ _ F). }
        { lia. }
        rewrite E. cbn [fst]. split; [exact Sb|]. split; [exact (add_tail sha p es _ _ _ _ G H E)|].
        apply (clean_holds _ _ H'). apply (clean_holds _ _ H) in C. rewrite map_app. apply Forall_app. split; [exact C|].
        constructor; [split; reflexivity|constructor].
  - destruct rm; [discriminate|]. destruct (existsb (fun f => f_id f =? id) fs) eqn:Ex.
    + apply existsb_id in Ex. destruct (first_with_id _ _ Ex) as (fa & f & fb & Ef & Eid & Fa).
      destruct (Forall2_split _ _ _ _ _ _ F Ef) as (a & [q c] & b & -> & F1 & (Fq1 & Fq2 & Fq3) & F2).
      cbn [fst snd] in Fq1, Fq2. rewrite Eid in Fq2. subst id.
      destruct (delete_part_ok sha p a q c b false [] G H Hs ltac:(discriminate)) as (p' & E & H' & D' & X1 & X2).
      rewrite Fq2 in E. rewrite E. cbn [fst]. split; [exact (X1 eq_refl)|]. split; [exact (delete_tail sha p _ _ _ G H E)|].
      apply (clean_holds _ _ H'). apply (clean_holds _ _ H) in C. rewrite map_app in C |- *. apply Forall_app in C as [C1 C2].
      apply Forall_app. split; [exact C1|]. cbn [map] in C2. inversion C2 as [|x l C3 C4]; subst. rewrite map_map.
      clear - C4. induction b as [|e b IH]; cbn [map] in *; [constructor|]. inversion C4 as [|x l A1 A2]; subst. constructor; auto.
    + assert (Nin : ~ In id (map f_id fs)) by (intros X; apply existsb_id in X; congruence).
      rewrite (delete_part_missing sha p es id false); auto. now rewrite (ids_of _ _ F).
  - destruct rm; [discriminate|]. pose proof (pkg_files_bound _ _ _ I) as Bf.
    destruct (delete_all_ok sha p false [] G (ho_wf _ _ H) ltac:(lia) Hs ltac:(discriminate)) as (p' & E & H' & L' & D' & X1 & X2).
    rewrite E. cbn [fst]. split; [exact (X1 eq_refl)|]. split.
    + apply (delete_all_tail sha p p' G); [apply (wf_payload_hash _ (ho_wf _ _ H))|exact E].
    + apply (clean_holds _ _ H'). constructor.
  - destruct (pkg_extract_file p id) as [out r]. exact Id.
Qed.

Lemma canon_history sha os : good_hash sha -> forall p fs, pkg_inv sha p fs -> Forall pkg_op_ok os -> forallb keeps_meta os = true ->
  zlen (pk_file p) + pkg_ops_cost os <= 2^63 -> clean (pk_header p) ->
  let p' := fst (run_pkg_ops sha p os) in
  pkg_inv sha p' (fst (spec_pkg_ops bpak_id fs os)) /\
  same_besides_parts (pk_header p) (pk_header p') /\ tail (pk_header p') = tail (pk_header p) /\ clean (pk_header p').
Proof.
  intros G. induction os as [|o os IH]; intros p fs I Ok Km Hb C.
  - cbn [run_pkg_ops spec_pkg_ops fst]. split; [exact I|]. split; [apply sbp_refl|auto].
  - inversion Ok as [|x l Ok1 Ok2]; subst. cbn [forallb] in Km. apply andb_prop in Km as [Km1 Km2].
    pose proof (pkg_ops_cost_nonneg os) as Nn. change (pkg_ops_cost (o :: os)) with (pkg_op_cost o + pkg_ops_cost os) in Hb.
    pose proof (pkg_step sha p fs o G I Ok1 ltac:(lia)) as St. pose proof (canon_step sha p fs o G I Ok1 Km1 ltac:(lia) C) as Cs.
    cbn [run_pkg_ops spec_pkg_ops]. destruct (run_pkg_op sha p o) as [[p1 x] y]. destruct (spec_pkg_op bpak_id fs o) as [[fs1 x'] y'].
    cbn [fst] in Cs. destruct St as (_ & _ & I1 & Lz), Cs as (S1 & T1 & C1).
    specialize (IH p1 fs1 I1 Ok2 Km2 ltac:(lia) C1). cbv zeta in IH. destruct (run_pkg_ops sha p1 os) as [p2 xs]. destruct (spec_pkg_ops bpak_id fs1 os) as [fs2 ys].
    cbn [fst] in *. destruct IH as (I2 & S2 & T2 & C2). split; [exact I2|]. split; [eapply sbp_trans; eauto|]. split; [congruence|exact C2].
Qed.
(* two histories with the same outcome leave the same file *)
Theorem history_independent sha p fs os1 os2 : good_hash sha -> pkg_inv sha p fs -> clean (pk_header p) ->
  Forall pkg_op_ok os1 -> Forall pkg_op_ok os2 -> forallb keeps_meta os1 = true -> forallb keeps_meta os2 = true ->
  zlen (pk_file p) + pkg_ops_cost os1 <= 2^63 -> zlen (pk_file p) + pkg_ops_cost os2 <= 2^63 ->
  fst (spec_pkg_ops bpak_id fs os1) = fst (spec_pkg_ops bpak_id fs os2) ->
  pk_file (fst (run_pkg_ops sha p os1)) = pk_file (fst (run_pkg_ops sha p os2)).
Proof.
  intros G I C O1 O2 K1 K2 B1 B2 E.
  destruct (canon_history sha os1 G p fs I O1 K1 B1 C) as (I1 & S1 & T1 & C1).
  destruct (canon_history sha os2 G p fs I O2 K2 B2 C) as (I2 & S2 & T2 & C2). rewrite <- E in I2.
  f_equal. eapply (same_contents sha); eauto; [|congruence]. eapply sbp_trans; [apply sbp_sym; exact S1|exact S2].
Qed.
