(* HeaderWitness.v -- concrete headers used as witnesses and instances *)
From Coq Require Import String FinFun Znumtheory.
From Verif Require Import BaseLemmas HeaderModel HeaderSpec HeaderOps CodecProofs PartProofs
  MetaProofs HeaderHistory.

(* boolean checkers to discharge [wf_header] on literals *)
Definition in_range (n v : Z) : bool := (0 <=? v) && (v <? n).
Definition bytes_okb (l : bytes) : bool := forallb (in_range 256) l.
Definition wf_metab (m : metah) : bool :=
  in_range (2^32) (m_id m) && in_range (2^16) (m_size m) && in_range (2^16) (m_offset m) &&
  in_range (2^32) (m_ref m) && (zlen (m_pad m) =? 4) && bytes_okb (m_pad m).
Definition wf_partb (p : parth) : bool :=
  in_range (2^32) (p_id p) && in_range (2^64) (p_size p) && in_range (2^64) (p_offset p) &&
  in_range (2^64) (p_transport_size p) && in_range (2^16) (p_pad_bytes p) &&
  in_range (2^8) (p_flags p) && in_range (2^8) (p_pad p).
Definition wf_headerb (h : header) : bool :=
  in_range (2^32) (h_magic h) && (zlen (h_pad0 h) =? 4) && bytes_okb (h_pad0 h) &&
  (length (h_meta h) =? 32)%nat && forallb wf_metab (h_meta h) &&
  (length (h_parts h) =? 32)%nat && forallb wf_partb (h_parts h) &&
  (zlen (h_metadata h) =? 1920) && bytes_okb (h_metadata h) &&
  in_range (2^8) (h_hash_kind h) && in_range (2^8) (h_signature_kind h) &&
  in_range (2^16) (h_alignment h) && (zlen (h_payload_hash h) =? 64) && bytes_okb (h_payload_hash h) &&
  in_range (2^32) (h_key_id h) && in_range (2^32) (h_keystore_id h) &&
  (zlen (h_pad1 h) =? 42) && bytes_okb (h_pad1 h) &&
  (zlen (h_signature h) =? 512) && bytes_okb (h_signature h) && in_range (2^16) (h_signature_sz h).
Lemma in_range_ok n v : in_range n v = true -> 0 <= v < n.
Proof. unfold in_range. lia. Qed.
Lemma bytes_okb_ok l : bytes_okb l = true -> bytes_ok l.
Proof.
  intros H. apply Forall_forall. intros x Hx. unfold bytes_okb in H. rewrite forallb_forall in H.
  apply in_range_ok. auto.
Qed.
Ltac splitb H :=
  repeat match type of H with
  | (_ && _ = true) => let H' := fresh "B" in apply andb_true_iff in H as [H H']
  end.
Lemma wf_metab_ok m : wf_metab m = true -> wf_meta m.
Proof.
  unfold wf_metab, wf_meta. intros H. splitb H.
  repeat match goal with Hx : in_range _ _ = true |- _ => apply in_range_ok in Hx end.
  repeat split; try lia. now apply bytes_okb_ok.
Qed.
Lemma wf_partb_ok p : wf_partb p = true -> wf_part p.
Proof.
  unfold wf_partb, wf_part. intros H. splitb H.
  repeat match goal with Hx : in_range _ _ = true |- _ => apply in_range_ok in Hx end.
  repeat split; lia.
Qed.
Lemma Forall_b {A} (f : A -> bool) (P : A -> Prop) l :
  (forall x, f x = true -> P x) -> forallb f l = true -> Forall P l.
Proof. intros H E. apply Forall_forall. intros x Hx. rewrite forallb_forall in E. auto. Qed.
Lemma wf_headerb_ok h : wf_headerb h = true -> wf_header h.
Proof.
  unfold wf_headerb. intros H. splitb H.
  repeat match goal with Hx : in_range _ _ = true |- _ => apply in_range_ok in Hx end.
  repeat match goal with Hx : bytes_okb _ = true |- _ => apply bytes_okb_ok in Hx end.
  constructor; try lia; try (split; [lia|assumption]).
  - split; [now apply Nat.eqb_eq|]. eapply Forall_b; [apply wf_metab_ok|assumption].
  - split; [now apply Nat.eqb_eq|]. eapply Forall_b; [apply wf_partb_ok|assumption].
Qed.

(* a header with two metadata entries and three parts *)
Definition example_part_ops : list part_op :=
  [PAdd 10; PAdd 11; PAdd 10; PSet 10 (mkPart 0 1000 0 0 24 0 0); PSet 11 (mkPart 0 3 0 700 509 2 0);
   PDel 99; PAdd 12].
Lemma example_part_ops_ok : Forall (fun o => part_op_id o <> 0) example_part_ops /\
  snd (run_parts init_header example_part_ops) =
    [Ok tt; Ok tt; Err E_EXISTS; Ok tt; Ok tt; Err E_NOT_FOUND; Ok tt].
Proof. split; [repeat (constructor; [discriminate|]); constructor | vm_compute; reflexivity]. Qed.

Definition example_meta_ops : list meta_op :=
  [MAdd 1 0 8; MAdd 2 0 24; MAdd 2 7 1; MAdd 1 0 3; MWrite 2 0 4 [9;8;7]; MDel 2 0].
Lemma example_meta_ops_ok : Forall meta_op_ok example_meta_ops /\
  snd (run_metas init_header example_meta_ops) = [Ok tt; Ok tt; Ok tt; Err E_EXISTS; Ok tt; Ok tt].
Proof.
  split; [|vm_compute; reflexivity].
  unfold example_meta_ops.
  repeat (apply Forall_cons; [cbn; lia|]). constructor.
Qed.

Definition example_header : header :=
  fst (run_metas (fst (run_parts init_header example_part_ops)) example_meta_ops).
Lemma example_header_wf : wf_header example_header.
Proof. apply wf_headerb_ok. vm_compute. reflexivity. Qed.

Lemma example_header_parts : exists a p b q, parts_are (h_parts example_header) (a ++ p :: b ++ [q]) /\
  Forall wf_part (h_parts example_header) /\ 4096 + sum_sizes (a ++ p :: b ++ [q]) < 2^63.
Proof.
  exists [], (mkPart 10 1000 0 0 24 0 0), [mkPart 11 3 0 700 509 2 0], (mkPart 12 0 0 0 0 0 0).
  split; [|split].
  - exists (repeat zero_part 29). split; [vm_compute; reflexivity|]. split; [vm_compute; reflexivity|].
    split; [repeat (constructor; [discriminate|]); constructor|].
    split; [cbn; repeat constructor; cbn; intuition lia|].
    apply table_empty_zero.
  - eapply Forall_b; [apply wf_partb_ok | vm_compute; reflexivity].
  - vm_compute. reflexivity.
Qed.

Definition full_parts : list parth := map (fun n => mkPart (Z.of_nat n) 512 0 0 0 0 0) (seq 1 32).
Lemma full_parts_ok : exists a p b, parts_are full_parts (a ++ p :: b) /\ length a = 31%nat.
Proof.
  exists (firstn 31 full_parts), (mkPart 32 512 0 0 0 0 0), []. split; [|reflexivity].
  exists []. rewrite app_nil_r.
  assert (E : firstn 31 full_parts ++ [mkPart 32 512 0 0 0 0 0] = full_parts) by (vm_compute; reflexivity).
  rewrite E. split; [reflexivity|]. split; [reflexivity|]. split; [|split; [|constructor]].
  - unfold full_parts. apply Forall_map. apply Forall_forall. intros n Hn. apply in_seq in Hn. cbn. lia.
  - unfold full_parts. rewrite map_map. cbn [p_id].
    apply FinFun.Injective_map_NoDup; [intros x y; lia | apply seq_NoDup].
Qed.

(* two entries: 8 bytes followed by 24 bytes *)
Definition two_entries : list mentry :=
  [mkEntry 1 0 (repeat 7 8)] ++ mkEntry 2 0 (map Z.of_nat (seq 1 24)) :: [].
Definition two_meta_header : header :=
  fst (run_metas init_header [MAdd 1 0 8; MAdd 2 0 24; MWrite 1 0 0 (repeat 7 8);
                              MWrite 2 0 0 (map Z.of_nat (seq 1 24))]).
Lemma two_meta_ok : metas_are (h_meta two_meta_header) (h_metadata two_meta_header)
    ([mkEntry 1 0 (repeat 7 8)] ++ mkEntry 2 0 (map Z.of_nat (seq 1 24)) :: []) /\
  (length two_entries < 32)%nat.
Proof.
  split; [|cbn; lia]. apply metas_are_iff.
  split; [vm_compute; reflexivity|]. split; [vm_compute; reflexivity|].
  split; [apply NoDup_cons; [cbn; unfold e_key; cbn; intuition congruence|apply NoDup_cons; [cbn; tauto|apply NoDup_nil]]|].
  split; [repeat (apply Forall_cons; [discriminate|]); constructor|].
  split.
  - replace (h_meta two_meta_header) with (mkMeta 1 8 0 0 [0;0;0;0] :: mkMeta 2 24 8 0 [0;0;0;0] :: repeat zero_meta 30)
      by (vm_compute; reflexivity).
    cbn [app layout e_val e_id e_ref m_id m_ref m_size m_offset]. repeat split.
    apply Forall_forall. intros m Hm. apply repeat_spec in Hm as ->. reflexivity.
  - cbn [app data_ok e_val]. repeat split; try (vm_compute; congruence).
Qed.
Lemma two_meta_exists : exists h, add_meta two_meta_header 2 0 8 = (h, Err E_EXISTS).
Proof. eexists. vm_compute. reflexivity. Qed.
Lemma two_meta_valid : valid_header two_meta_header = Ok tt /\ no_holes m_id (h_meta two_meta_header) /\
  get_meta two_meta_header 2 0 = Ok 1%nat.
Proof.
  split; [vm_compute; reflexivity|]. split; [|vm_compute; reflexivity].
  exists (firstn 2 (h_meta two_meta_header)), (skipn 2 (h_meta two_meta_header)).
  rewrite firstn_skipn. split; [reflexivity|]. split.
  - vm_compute. repeat (constructor; [discriminate|]). constructor.
  - replace (skipn 2 (h_meta two_meta_header)) with (repeat zero_meta 30) by (vm_compute; reflexivity).
    apply Forall_forall. intros m Hm. apply repeat_spec in Hm as ->. reflexivity.
Qed.

Lemma del_meta_corrupts : exists h i h' m m',
  metas_are (h_meta h) (h_metadata h) two_entries /\ (length two_entries < 32)%nat /\
  get_meta h 1 0 = Ok i /\ del_meta h i = Ok h' /\
  get_meta h 2 0 = Ok 1%nat /\ nth_error (h_meta h) 1 = Some m /\
  get_meta h' 2 0 = Ok 0%nat /\ nth_error (h_meta h') 0 = Some m' /\
  m_size m' = m_size m /\
  slice (m_offset m') (m_size m') (h_metadata h') <> slice (m_offset m) (m_size m) (h_metadata h).
Proof.
  destruct (del_meta two_meta_header 0) as [h'| | |] eqn:E; try (vm_compute in E; discriminate).
  exists two_meta_header, 0%nat, h', (mkMeta 2 24 8 0 [0;0;0;0]), (mkMeta 2 24 0 0 [0;0;0;0]).
  split; [exact (proj1 two_meta_ok)|]. split; [exact (proj2 two_meta_ok)|].
  split; [vm_compute; reflexivity|]. split; [exact E|].
  split; [vm_compute; reflexivity|]. split; [vm_compute; reflexivity|].
  vm_compute in E. injection E as <-.
  split; [vm_compute; reflexivity|]. split; [vm_compute; reflexivity|]. split; [reflexivity|].
  vm_compute. discriminate.
Qed.

Lemma del_value_small adj v : zlen v <= adj -> del_value adj v = v.
Proof.
  intros. unfold del_value. rewrite ztake_all, zeros_neg by lia. apply app_nil_r.
Qed.
Lemma del_meta_keeps_small h a id ref v b :
  metas_are (h_meta h) (h_metadata h) (a ++ mkEntry id ref v :: b) ->
  (length (a ++ mkEntry id ref v :: b) < 32)%nat ->
  (forall e, In e b -> zlen (e_val e) <= align8 (zlen v)) ->
  exists h', del_meta h (length a) = Ok h' /\
    metas_are (h_meta h') (h_metadata h') (a ++ b) /\
    h' = with_metadata (with_meta h (h_meta h')) (h_metadata h').
Proof.
  intros Hm Hl Hb. destruct (del_meta_exact h a id ref v b Hm Hl) as (h' & H1 & H2 & H3).
  assert (E : map (trunc_entry (align8 (zlen v))) b = b).
  { clear - Hb. induction b as [|e b IH]; [reflexivity|]. cbn [map]. f_equal.
    - unfold trunc_entry. rewrite del_value_small by (apply Hb; now left). destruct e; reflexivity.
    - apply IH. intros f Hf. apply Hb. now right. }
  rewrite E in H2. exists h'. split; [exact H1|]. split; [exact H2|exact H3].
Qed.
Lemma del_meta_gone h a id ref v b :
  metas_are (h_meta h) (h_metadata h) (a ++ mkEntry id ref v :: b) ->
  (length (a ++ mkEntry id ref v :: b) < 32)%nat ->
  exists h', del_meta h (length a) = Ok h' /\ same_but_meta h h' /\
    get_meta h' id ref = Err E_NOT_FOUND.
Proof.
  intros Hm Hl. destruct (del_meta_exact h a id ref v b Hm Hl) as (h' & H1 & H2 & H3).
  exists h'. split; [exact H1|]. split; [exact H3|].
  apply metas_are_iff in Hm as (_ & _ & Hnd & Hnz & _).
  apply (proj1 (proj2 (metas_are_client h' _ H2))).
  - apply Forall_app in Hnz as [_ Hnz]. now inversion Hnz.
  - rewrite map_app in Hnd. cbn [map] in Hnd. apply NoDup_remove_2 in Hnd.
    rewrite map_app, map_map. exact Hnd.
Qed.

Lemma add_meta_not_atomic : exists id ref size h',
  add_meta init_header id ref size = (h', Err E_NO_SPACE_LEFT) /\ h' <> init_header /\
  valid_header init_header = Ok tt /\ valid_header h' = Err E_SIZE_ERROR.
Proof.
  destruct (add_meta init_header 5 0 1921) as [h' x] eqn:E.
  exists 5, 0, 1921, h'. rewrite E. vm_compute in E. injection E as <- <-.
  split; [reflexivity|]. split; [|split; vm_compute; reflexivity].
  intros H. apply (f_equal (fun h => map m_id (h_meta h))) in H. vm_compute in H. discriminate.
Qed.

(* 32 one-byte entries *)
Definition full_meta_header : header :=
  fst (run_metas init_header (map (fun n => MAdd (Z.of_nat n) 0 1) (seq 1 32))).
Lemma full_meta_ub :
  wf_header full_meta_header /\ valid_header full_meta_header = Ok tt /\
  (forall i, (i < 32)%nat -> del_meta full_meta_header i = UB).
Proof.
  split; [apply wf_headerb_ok; vm_compute; reflexivity|]. split; [vm_compute; reflexivity|].
  intros i Hi. apply del_meta_full_ub. apply Forall_skipn'.
  apply (Forall_b (fun m => negb (m_id m =? 0))); [intros; lia|]. vm_compute. reflexivity.
Qed.

(* an empty slot followed by an entry pointing outside the block *)
Definition hole_header : header :=
  with_meta init_header (zero_meta :: mkMeta 77 100 1900 0 [0;0;0;0] :: repeat zero_meta 30).
Lemma hole_header_unsafe : exists h id i m,
  wf_header h /\ valid_header h = Ok tt /\ get_meta h id 0 = Ok i /\
  nth_error (h_meta h) i = Some m /\ m_offset m + m_size m > 1920 /\
  meta_read h i 0 (m_size m) = UB.
Proof.
  exists hole_header, 77, 1%nat, (mkMeta 77 100 1900 0 [0;0;0;0]).
  split; [apply wf_headerb_ok; vm_compute; reflexivity|].
  repeat split; vm_compute; reflexivity.
Qed.

Lemma api_header_valid h live ps :
  h_magic h = 1112555826 -> h_hash_kind h <> 0 ->
  metas_are (h_meta h) (h_metadata h) live -> parts_are (h_parts h) ps ->
  Forall (fun p => (p_size p + p_pad_bytes p) mod 512 = 0) ps -> valid_header h = Ok tt.
Proof.
  intros Hmg Hk Hm (empty & Hs & _ & Hnz & _ & He) Hp. apply valid_header_iff.
  split; [auto|]. split; [|split; auto].
  - unfold parts_aligned. rewrite Hs, until_empty_holefree by auto.
    eapply Forall_impl; [|exact Hp]. cbn. intros p Hpp.
    rewrite <- Znumtheory.Zmod_div_mod; try lia. now exists (2^55).
  - unfold metas_in_bounds. apply Forall_forall. intros m Hin.
    destruct Hm as (Hlen & _ & Hle & _ & Hid & Hn & Hemp).
    destruct (until_empty_prefix m_id (h_meta h)) as [b Hb].
    assert (Hnz' : Forall (fun m => m_id m <> 0) (until_empty m_id (h_meta h))).
    { generalize (h_meta h). clear. induction l as [|x l IH]; cbn [until_empty]; [constructor|].
      destruct (Z.eqb_spec (m_id x) 0); constructor; auto. }
    assert (m_id m <> 0) by (rewrite Forall_forall in Hnz'; auto).
    assert (Hin' : In m (h_meta h)) by (rewrite Hb, in_app_iff; now left).
    apply In_nth_error in Hin' as [i Hi].
    destruct (nth_error live i) as [e|] eqn:Ei.
    + destruct (Hn i e Ei) as (Ho & _ & m' & Hm' & _ & _ & E3 & E4).
      rewrite Hi in Hm'. injection Hm' as <-. rewrite E3, E4. exact Ho.
    + apply nth_error_None in Ei. destruct (Hemp i) as (m' & Hm' & H0).
      { split; auto. rewrite <- Hlen. apply nth_error_Some. congruence. }
      congruence.
Qed.
