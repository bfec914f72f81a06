(* ViewProofs.v -- src/compare.c *)
From Coq Require Import Lia String FinFun.
From Verif Require Import Base BaseLemmas HeaderModel HeaderSpec CrcModel CodecProofs PartProofs MetaProofs HashModel VerifyModel VerifySpec PkgModel PkgSpec PkgProofs PkgTrees PkgApi UtilModel UtilSpec UtilProofs UtilMeta CliModel CliSpec CliMeta CliProofs ViewModel ViewSpec.
Local Open Scope Z_scope.
Local Open Scope list_scope.

(* ---- the text of an entry ---- *)
Lemma entry_text_ext id (d d' : bytes) s : entry_text id d s ->
  (forall o n, 0 <= o -> 0 <= n -> o + n <= expected_size id -> slice o n d = slice o n d') -> entry_text id d' s.
Proof.
  intros T X. destruct T; try (constructor; auto; fail).
  - constructor. rewrite <- X; [assumption|lia|lia|reflexivity || (cbn; lia)].
  - constructor. rewrite <- X; [assumption|lia|lia|vm_compute; congruence].
  - constructor; [|assumption]. rewrite <- X; [assumption|lia|lia|vm_compute; congruence].
  - constructor; (rewrite <- X; [assumption|lia|lia|vm_compute; congruence]).
  - constructor; [|assumption]. rewrite <- X; [assumption|lia|lia|vm_compute; congruence].
  - constructor; [|assumption]. rewrite <- X; [assumption|lia|lia|vm_compute; congruence].
  - constructor. rewrite <- X; [assumption|lia|lia|vm_compute; congruence].
  - constructor. rewrite <- X; [assumption|lia|lia|vm_compute; congruence].
Qed.
Lemma slice_zdrop o n (l : bytes) off z : 0 <= off -> 0 <= o -> 0 <= n -> o + n <= z ->
  slice o n (zdrop off l) = slice o n (slice off z l).
Proof.
  intros. unfold slice. rewrite zdrop_ztake by lia. rewrite ztake_ztake. f_equal. lia.
Qed.
Lemma holds_string_cstr buf s : holds_string buf s -> cstr buf = Some s.
Proof.
  intros (N & r & ->). cbn [app]. induction s as [|c s IH]; [reflexivity|]. cbn [app cstr].
  destruct (Z.eqb_spec c 0); [elim N; now left|]. rewrite IH; [reflexivity|]. intros C. apply N. now right.
Qed.
Lemma in_zero_existsb (s : bytes) : In 0 s -> existsb (fun b => b =? 0) s = true.
Proof. intros H. apply existsb_exists. exists 0. split; auto. Qed.

Lemma live_slot h live i e : metas_are (h_meta h) (h_metadata h) live -> nth_error live i = Some e ->
  exists m, nth_error (h_meta h) i = Some m /\ m_id m = e_id e /\ m_ref m = e_ref e /\ m_size m = zlen (e_val e) /\
    0 <= m_offset m /\ m_offset m + zlen (e_val e) <= 1920 /\ slice (m_offset m) (zlen (e_val e)) (h_metadata h) = e_val e.
Proof.
  intros (_ & _ & _ & _ & _ & H & _) Hi. destruct (H i e Hi) as (B & S & m & Hm & E1 & E2 & E3 & E4).
  exists m. rewrite E4. pose proof (meta_end_nonneg (firstn i live)). repeat split; auto.
Qed.
Lemma shown_ok h live i e buf : wf_header h -> metas_are (h_meta h) (h_metadata h) live -> nth_error live i = Some e ->
  37 <= zlen buf -> printable (zlen buf) e ->
  exists buf' s, shown h i buf = Ok (buf', s) /\ zlen buf' = zlen buf /\ shown_text e s.
Proof.
  intros W M Hi BL (P1 & P2 & P3). destruct (live_slot h live i e M Hi) as (m & Hm & E1 & E2 & E3 & O & IN & V).
  destruct (wf_metadata _ W) as [ML MB]. unfold shown, shown_text.
  destruct (Z.eqb_spec (e_id e) ID_BPAK_VERSION) as [K|K].
  - destruct (P3 K) as [Z0 Zl].
    destruct (version_exact h i m buf Hm (eq_trans E1 K) ML O ltac:(rewrite E3; apply zlen_nonneg) ltac:(unfold METADATA_BYTES; lia)) as [_ X].
    rewrite X by lia. rewrite E3, V. unfold c_text. rewrite (cstr_has _ _ (in_zero_existsb _ Z0)). cbn [bind].
    do 2 eexists. split; [reflexivity|]. split; [|reflexivity]. rewrite zlen_app, zlen_zdrop. pose proof (zlen_nonneg (e_val e)). lia.
  - destruct (meta_to_string_fits h i m buf Hm MB ML O ltac:(rewrite E3; unfold METADATA_BYTES; lia) ltac:(rewrite E1, E3; exact P1) BL) as (b' & s & E & Hs & L & T).
    + rewrite E1. exact P2.
    + rewrite E1. exact K.
    + rewrite E. unfold c_text. rewrite (holds_string_cstr _ _ Hs). cbn [bind]. do 2 eexists. split; [reflexivity|]. split; [exact L|].
      rewrite E1 in T. apply (entry_text_ext _ _ _ _ T). intros o n Ho Hn Hon. rewrite <- V. apply slice_zdrop; lia.
Qed.

(* ---- metadata of file 1 ---- *)
Lemma skipn_nth {A} (l : list A) : forall i x r, skipn i l = x :: r -> nth_error l i = Some x /\ skipn (S i) l = r.
Proof.
  induction l as [|y l IH]; intros [|i] x r E; cbn [skipn] in E; try discriminate.
  - injection E as -> ->. split; reflexivity.
  - apply IH in E as [E1 E2]. split; [exact E1|exact E2].
Qed.
Lemma slot_cases h live i m : metas_are (h_meta h) (h_metadata h) live -> nth_error (h_meta h) i = Some m ->
  (exists e, nth_error live i = Some e /\ skipn i live = e :: skipn (S i) live) \/ (skipn i live = [] /\ m_id m = 0).
Proof.
  intros (L & _ & _ & _ & _ & _ & H) Hm. destruct (nth_error live i) as [e|] eqn:E.
  - left. exists e. split; [reflexivity|]. revert i E Hm. clear. induction live as [|x l IH]; intros [|i] E Hm; try discriminate.
    + cbn in E. injection E as ->. reflexivity.
    + cbn [nth_error] in E. cbn [skipn].
      assert (G : forall i, nth_error l i = Some e -> skipn i l = e :: skipn (S i) l).
      { clear. induction l as [|y l IH]; intros [|i] E; try discriminate; [cbn in E; injection E as ->; reflexivity|].
        cbn [nth_error] in E. cbn [skipn]. apply (IH _ E). }
      apply G. exact E.
  - right. apply nth_error_None in E. split; [now apply skipn_all2|].
    assert (B : (i < 32)%nat) by (rewrite <- L; apply nth_error_Some; congruence).
    destruct (H i ltac:(lia)) as (m' & Hm' & Z0). congruence.
Qed.
Definition key_fn (id ref : Z) : mentry -> bool := fun e => (e_id e =? id) && (e_ref e =? ref).
Lemma same_key_fn e : same_key e = key_fn (e_id e) (e_ref e).
Proof. reflexivity. Qed.
Lemma find_index_nth {A} (f : A -> bool) (l : list A) i : find_index f l = Some i -> exists x, nth_error l i = Some x /\ f x = true /\ find f l = Some x.
Proof.
  intros E. rewrite find_find_index, E. apply find_index_Some in E as (a & x & b & -> & <- & Hx & _).
  exists x. rewrite nth_error_app2, Nat.sub_diag by lia. auto.
Qed.
(* the lookup of an entry in the other file *)
Lemma lookup h ms e : e_id e <> 0 -> metas_are (h_meta h) (h_metadata h) ms ->
  match find (same_key e) ms with
  | Some e2 => exists j, get_meta h (e_id e) (e_ref e) = Ok j /\ nth_error ms j = Some e2
  | None => get_meta h (e_id e) (e_ref e) = Err E_NOT_FOUND
  end.
Proof.
  intros Hid M. rewrite (get_meta_live h ms _ _ Hid M). change (fun e0 => (e_id e0 =? e_id e) && (e_ref e0 =? e_ref e)) with (same_key e).
  destruct (find_index (same_key e) ms) as [j|] eqn:E.
  - destruct (find_index_nth _ _ _ E) as (x & Hx & _ & F). rewrite F. exists j. auto.
  - rewrite find_find_index, E. reflexivity.
Qed.
Lemma live_nonzero h live e : metas_are (h_meta h) (h_metadata h) live -> In e live -> e_id e <> 0.
Proof. intros (_ & _ & _ & _ & F & _) H. rewrite Forall_forall in F. now apply F. Qed.

Section Metas1.
Variables (h1 h2 : header) (ms1 ms2 : list mentry).
Hypothesis W1 : wf_header h1.
Hypothesis W2 : wf_header h2.
Hypothesis M1 : metas_are (h_meta h1) (h_metadata h1) ms1.
Hypothesis M2 : metas_are (h_meta h2) (h_metadata h2) ms2.
Lemma metas1_step i l m buf : skipn i (h_meta h1) = m :: l ->
  cmp_metas1 h1 h2 i (m :: l) buf =
  match skipn i ms1 with
  | [] => cmp_metas1 h1 h2 (S i) l buf
  | e :: _ =>
      match find (same_key e) ms2 with
      | None => ([], UB)
      | Some e2 =>
          match (do d2 <- (do j <- get_meta h2 (e_id e) (e_ref e); meta_read h2 j 0 (zlen (e_val e)));
                 do (buf1, s) <- shown h1 i buf;
                 Ok (bytes_eqb (e_val e) d2, buf1, s)) with
          | Ok (same, buf1, s) => after [LMeta (if (same : bool) then MSame else MStar) m s] (cmp_metas1 h1 h2 (S i) l buf1)
          | Err e => ([], Err e)
          | UB => ([], UB)
          | Stuck => ([], Stuck)
          end
      end
  end.
Proof using All.
  intros Hl. destruct (skipn_nth _ _ _ _ Hl) as [Hm _].
  destruct (slot_cases h1 ms1 i m M1 Hm) as [(e & He & ->)|(-> & Z0)].
  - destruct (live_slot h1 ms1 i e M1 He) as (m' & Hm' & E1 & E2 & E3 & _). assert (m' = m) by congruence. subst m'.
    pose proof (live_nonzero h1 ms1 e M1 (nth_error_In _ _ He)) as NZ.
    cbn [cmp_metas1]. rewrite E1, E2, E3. destruct (Z.eqb_spec (e_id e) 0); [contradiction|].
    pose proof (lookup h2 ms2 e NZ M2) as Lk. destruct (find (same_key e) ms2) as [e2|].
    + destruct Lk as (j & -> & Hj). cbn [bind].
      assert (R : meta_read h1 i 0 (zlen (e_val e)) = Ok (e_val e)) by (destruct e; apply (meta_read_whole h1 ms1 i _ _ _ M1 He)).
      rewrite R. cbn [bind]. reflexivity.
    + rewrite Lk. reflexivity.
  - cbn [cmp_metas1]. rewrite Z0. reflexivity.
Qed.
Hypothesis P1 : Forall (printable 64) ms1.
Hypothesis SUB : forall e, In e ms1 -> exists e2, find (same_key e) ms2 = Some e2 /\ zlen (e_val e2) = zlen (e_val e).
Lemma metas1_ok : forall l i buf, skipn i (h_meta h1) = l -> zlen buf = 64 -> exists ls buf',
  cmp_metas1 h1 h2 i l buf = (ls, Ok buf') /\ zlen buf' = 64 /\
  Forall2 line_is ls (map (fun e => RMeta (meta_mark ms2 e) e) (skipn i ms1)).
Proof using All.
  induction l as [|m l IH]; intros i buf Hl BL.
  - cbn [cmp_metas1]. exists [], buf. split; [reflexivity|]. split; [exact BL|].
    rewrite skipn_all2; [constructor|]. pose proof M1 as (L & _ & L' & _).
    assert (length (skipn i (h_meta h1)) = 0%nat) by now rewrite Hl. rewrite skipn_length in H. lia.
  - rewrite (metas1_step i l m buf Hl). destruct (skipn_nth _ _ _ _ Hl) as [Hm Hl'].
    destruct (slot_cases h1 ms1 i m M1 Hm) as [(e & He & Ek)|(Ek & Z0)]; rewrite Ek.
    + pose proof (nth_error_In _ _ He) as Hin. destruct (SUB e Hin) as (e2 & F & L2). rewrite F.
      pose proof (lookup h2 ms2 e (live_nonzero h1 ms1 e M1 Hin) M2) as Lk. rewrite F in Lk. destruct Lk as (j & -> & Hj). cbn [bind].
      assert (R2 : meta_read h2 j 0 (zlen (e_val e)) = Ok (e_val e2)) by (rewrite <- L2; destruct e2; apply (meta_read_whole h2 ms2 j _ _ _ M2 Hj)).
      rewrite R2. cbn [bind]. rewrite Forall_forall in P1.
      destruct (shown_ok h1 ms1 i e buf W1 M1 He ltac:(lia)) as (buf1 & s & -> & Lb & T); [rewrite BL; now apply P1|]. cbn [bind].
      destruct (IH (S i) buf1 Hl' ltac:(lia)) as (ls & buf' & -> & Lb' & F2). unfold after. cbn [fst snd app].
      do 2 eexists. split; [reflexivity|]. split; [exact Lb'|]. cbn [map]. constructor; [|exact F2].
      destruct (live_slot h1 ms1 i e M1 He) as (m' & Hm' & E1 & E2 & E3 & _). assert (m' = m) by congruence. subst m'.
      cbn [line_is]. split; [|auto]. unfold meta_mark. rewrite F. destruct (bytes_dec (e_val e) (e_val e2)) as [D|D].
      * rewrite <- D, BaseLemmas.bytes_eqb_refl. reflexivity.
      * apply bytes_eqb_neq in D. rewrite D. reflexivity.
    + destruct (IH (S i) buf Hl' BL) as (ls & buf' & E & Lb & F2). exists ls, buf'. split; [exact E|]. split; [exact Lb|].
      replace (skipn (S i) ms1) with (@nil mentry) in F2; [exact F2|]. symmetry. apply skipn_all2.
      assert (X : length (skipn i ms1) = 0%nat) by (rewrite Ek; reflexivity). rewrite skipn_length in X. lia.
Qed.
End Metas1.

(* ---- metadata only in file 2 ---- *)
Definition last_of {A} (f : A -> res unit) (l : list A) (d : res unit) : res unit := match rev l with [] => d | e :: _ => f e end.
Lemma last_of_cons {A} (f : A -> res unit) x l d : last_of f (x :: l) d = last_of f l (f x).
Proof. unfold last_of. cbn [rev]. destruct (rev l); reflexivity. Qed.
Definition found_meta (ms : list mentry) (e : mentry) : res unit := if existsb (same_key e) ms then Ok tt else Err E_NOT_FOUND.
Definition found_part (es : list (parth * bytes)) (e : parth * bytes) : res unit := if existsb (same_id e) es then Ok tt else Err E_NOT_FOUND.
Lemma find_existsb {A} (f : A -> bool) (l : list A) : existsb f l = match find f l with Some _ => true | None => false end.
Proof. induction l as [|x l IH]; [reflexivity|]. cbn [existsb find]. destruct (f x); [reflexivity|exact IH]. Qed.

Section Metas2.
Variables (h1 h2 : header) (ms1 ms2 : list mentry).
Hypothesis W2 : wf_header h2.
Hypothesis M1 : metas_are (h_meta h1) (h_metadata h1) ms1.
Hypothesis M2 : metas_are (h_meta h2) (h_metadata h2) ms2.
Hypothesis P2 : Forall (fun e => existsb (same_key e) ms1 = false -> printable 64 e) ms2.
Lemma metas2_ok : forall l i buf rc, skipn i (h_meta h2) = l -> zlen buf = 64 -> exists ls,
  cmp_metas2 h1 h2 i l buf rc = (ls, Ok (last_of (found_meta ms1) (skipn i ms2) rc)) /\
  Forall2 line_is ls (map (RMeta MPlus) (filter (fun e => negb (existsb (same_key e) ms1)) (skipn i ms2))).
Proof using All.
  induction l as [|m l IH]; intros i buf rc Hl BL.
  - cbn [cmp_metas2]. exists []. assert (E : skipn i ms2 = []).
    { apply skipn_all2. pose proof M2 as (L & _ & L' & _).
      assert (X : length (skipn i (h_meta h2)) = 0%nat) by now rewrite Hl. rewrite skipn_length in X. lia. }
    rewrite E. split; [reflexivity|constructor].
  - destruct (skipn_nth _ _ _ _ Hl) as [Hm Hl'].
    destruct (slot_cases h2 ms2 i m M2 Hm) as [(e & He & Ek)|(Ek & Z0)]; rewrite Ek; cbn [cmp_metas2].
    + destruct (live_slot h2 ms2 i e M2 He) as (m' & Hm' & E1 & E2 & E3 & _). assert (m' = m) by congruence. subst m'.
      pose proof (nth_error_In _ _ He) as Hin. pose proof (live_nonzero h2 ms2 e M2 Hin) as NZ.
      rewrite E1, E2. destruct (Z.eqb_spec (e_id e) 0); [contradiction|]. rewrite last_of_cons. cbn [filter].
      pose proof (lookup h1 ms1 e NZ M1) as Lk. unfold found_meta at 2.
      rewrite Forall_forall in P2. specialize (P2 e Hin). rewrite find_existsb in *.
      destruct (find (same_key e) ms1) as [e2|].
      * destruct Lk as (j & -> & _). cbn [negb]. apply (IH (S i) buf (Ok tt) Hl' BL).
      * rewrite Lk. cbn [negb map]. destruct (shown_ok h2 ms2 i e buf W2 M2 He ltac:(lia)) as (buf1 & s & -> & Lb & T); [rewrite BL; auto|].
        destruct (IH (S i) buf1 (Err E_NOT_FOUND) Hl' ltac:(lia)) as (ls & -> & F2). unfold after. cbn [fst snd app].
        eexists. split; [reflexivity|]. constructor; [|exact F2]. cbn [line_is]. auto.
    + rewrite Z0. cbn [Z.eqb]. destruct (IH (S i) buf rc Hl' BL) as (ls & E & F2).
      assert (X : skipn (S i) ms2 = []).
      { apply skipn_all2. assert (X : length (skipn i ms2) = 0%nat) by (rewrite Ek; reflexivity). rewrite skipn_length in X. lia. }
      rewrite X in E, F2. exists ls. split; [exact E|exact F2].
Qed.
End Metas2.

(* ---- parts ---- *)
Lemma part_eqb_dec p q : part_eqb p q = if parth_dec q p then true else false.
Proof.
  destruct (parth_dec q p) as [->|N].
  - unfold part_eqb. rewrite !Z.eqb_refl. reflexivity.
  - destruct (part_eqb p q) eqn:E; [|reflexivity]. elim N. unfold part_eqb in E.
    repeat (apply andb_prop in E as [E ?]). apply Z.eqb_eq in E. destruct p, q; cbn in *.
    repeat match goal with H : (_ =? _) = true |- _ => apply Z.eqb_eq in H end. congruence.
Qed.
Lemma cmp_data_ok f1 f2 : forall fuel p1 p2 left, 0 <= left -> 0 <= p1 -> 0 <= p2 -> p1 + left <= zlen f1 -> p2 + left <= zlen f2 ->
  (left + 4095) / 4096 <= Z.of_nat fuel ->
  cmp_data fuel f1 p1 f2 p2 left = Ok (bytes_eqb (slice p1 left f1) (slice p2 left f2)).
Proof.
  induction fuel as [|k IH]; intros p1 p2 left L0 H1 H2 B1 B2 HF.
  - assert (left = 0) by lia. subst left. cbn [cmp_data Z.eqb]. rewrite !slice_neg_len by lia. reflexivity.
  - cbn [cmp_data]. destruct (Z.eqb_spec left 0) as [->|NZ].
    + rewrite !slice_neg_len by lia. reflexivity.
    + set (n := if left >? 4096 then 4096 else left).
      assert (Hn : 0 < n /\ n <= left /\ n <= 4096 /\ (n = left \/ n = 4096)) by (unfold n; destruct (Z.gtb_spec left 4096); lia).
      unfold fread_at. rewrite !zlen_slice_in by lia. rewrite Z.eqb_refl. cbn [negb].
      replace left with (n + (left - n)) at 2 3 by lia. rewrite !slice_split by lia.
      destruct (bytes_eqb (slice p1 n f1) (slice p2 n f2)) eqn:E.
      * rewrite IH by lia.
        apply BaseLemmas.bytes_eqb_eq in E. rewrite E. f_equal.
        destruct (bytes_eqb (slice (p1 + n) (left - n) f1) (slice (p2 + n) (left - n) f2)) eqn:E2.
        -- apply BaseLemmas.bytes_eqb_eq in E2. rewrite E2. symmetry. apply BaseLemmas.bytes_eqb_refl.
        -- symmetry. apply bytes_eqb_neq. apply bytes_eqb_neq in E2. intros C. apply E2. apply app_inv_head in C. exact C.
      * f_equal. symmetry. apply bytes_eqb_neq. apply bytes_eqb_neq in E. intros C. apply E.
        apply (f_equal (ztake n)) in C. rewrite !ztake_app_l, !ztake_all in C by (rewrite zlen_slice_in; lia). exact C.
Qed.
(* the bytes of a part in the file *)
Lemma part_bytes p (a : list (parth * bytes)) q c b : holds p (a ++ (q, c) :: b) ->
  part_size q = zlen c /\ 0 <= part_offset (pk_header p) q /\ part_offset (pk_header p) q + zlen c <= zlen (pk_file p) /\
  slice (part_offset (pk_header p) q) (zlen c) (pk_file p) = c.
Proof.
  intros H. rewrite (part_offset_at _ _ _ _ _ H).
  destruct (entry_wf p _ (q, c) H ltac:(apply in_elt)) as (Wq & Sq & Bq). cbn [fst snd] in *.
  pose proof (zlen_nonneg (concat (map snd a))) as Z1. pose proof (zlen_enc_header _ (ho_wf _ _ H)) as Z2.
  assert (F : pk_file p = (enc_header (pk_header p) ++ concat (map snd a)) ++ c ++ concat (map snd b)).
  { rewrite (ho_file _ _ H), map_app, concat_app. cbn [map concat snd]. now rewrite !app_assoc. }
  split; [|split; [lia|split]].
  - rewrite Sq. unfold part_size, stored_size. rewrite has_flag_transport. destruct Wq as (_ & S & _ & _ & Pb & _).
    unfold stored_size in Sq.
    destruct (Z.testbit (p_flags q) 1); [reflexivity|]. unfold u64. apply Z.mod_small. pose proof (zlen_nonneg c). lia.
  - rewrite F, !zlen_app. pose proof (zlen_nonneg (concat (map snd b))). lia.
  - rewrite F. apply slice_app_exact; [rewrite zlen_app; lia|lia].
Qed.
Lemma find_part p (es : list (parth * bytes)) (e : parth * bytes) : holds p es -> p_id (fst e) <> 0 ->
  match find (same_id e) es with
  | Some e2 => exists a b, es = a ++ e2 :: b /\ p_id (fst e2) = p_id (fst e) /\ get_part (pk_header p) (p_id (fst e)) = Ok (length a) /\
      nth_error (h_parts (pk_header p)) (length a) = Some (fst e2) /\ behind (p_id (fst e)) es = zlen (concat (map snd (e2 :: b)))
  | None => get_part (pk_header p) (p_id (fst e)) = Err E_NOT_FOUND
  end.
Proof.
  intros H NZ. destruct (find (same_id e) es) as [e2|] eqn:F.
  - rewrite find_find_index in F. destruct (find_index (same_id e) es) as [i|] eqn:FI; [|discriminate].
    apply find_index_Some in FI as (a & x & b & -> & <- & Hx & Ha). rewrite nth_error_app2, Nat.sub_diag in F by lia.
    cbn [nth_error] in F. injection F as ->. unfold same_id in Hx. apply Z.eqb_eq in Hx.
    exists a, b. destruct e2 as [q c]. destruct (get_part_at _ _ _ _ _ H) as [G1 G2]. cbn [fst] in *. rewrite <- Hx.
    split; [reflexivity|]. split; [reflexivity|]. split; [exact G1|]. split; [exact G2|].
    clear - Ha Hx. induction a as [|y a IH]; cbn [app behind].
    + cbn [fst]. rewrite Z.eqb_refl. reflexivity.
    + inversion Ha as [|? ? Hy Ha']; subst. unfold same_id in Hy. rewrite <- Hx in Hy. rewrite Hy. apply IH. exact Ha'.
  - apply (get_part_none p es); [exact H|exact NZ|]. intros I. apply in_map_iff in I as (x & E & I).
    apply (find_none _ _ F) in I. unfold same_id in I. apply Z.eqb_neq in I. congruence.
Qed.
Section Parts.
Variables (p1 p2 : pkg) (es1 es2 : list (parth * bytes)).
Hypothesis H1 : holds p1 es1.
Hypothesis H2 : holds p2 es2.
Hypothesis ROOM : Forall (fun e => existsb (same_id e) es2 = true -> zlen (snd e) <= behind (p_id (fst e)) es2) es1.
Lemma parts1_live : forall b a rc, es1 = a ++ b -> exists ls,
  cmp_parts1 (pk_header p1) (pk_header p2) (pk_file p1) (pk_file p2) (map fst b ++ repeat zero_part (32 - length es1)) rc =
    (ls, Ok (last_of (found_part es2) b rc)) /\
  Forall2 line_is ls (map (fun e => RPart (part_mark es2 e) (fst e)) b).
Proof using All.
  induction b as [|e b IH]; intros a rc E.
  - exists []. split; [|constructor]. cbn [map app]. induction (32 - length es1)%nat; [reflexivity|]. cbn [repeat cmp_parts1]. exact IHn.
  - assert (Hin : In e es1) by (rewrite E; apply in_elt).
    pose proof (ho_nonzero _ _ H1) as NZ. rewrite Forall_forall in NZ. specialize (NZ e Hin). cbn beta in NZ.
    pose proof (find_part p2 es2 e H2 NZ) as F. rewrite Forall_forall in ROOM. specialize (ROOM e Hin).
    rewrite last_of_cons. unfold found_part at 2. rewrite find_existsb in *.
    cbn [map app cmp_parts1]. destruct (Z.eqb_spec (p_id (fst e)) 0); [contradiction|].
    unfold part_mark at 1. destruct (find (same_id e) es2) as [e2|].
    + destruct F as (a2 & b2 & E2 & I2 & G1 & G2 & B2). rewrite G1, G2. specialize (ROOM eq_refl). rewrite B2 in ROOM.
      destruct e as [q c]. destruct e2 as [q2 c2]. cbn [fst snd] in *.
      pose proof H1 as H1'. rewrite E in H1'. pose proof H2 as H2'. rewrite E2 in H2'.
      destruct (part_bytes _ _ _ _ _ H1') as (S1 & O1 & L1 & D1). destruct (part_bytes _ _ _ _ _ H2') as (S2 & O2 & L2 & D2).
      destruct (Z.ltb_spec (part_offset (pk_header p1) q) 0); [lia|]. destruct (Z.ltb_spec (part_offset (pk_header p2) q2) 0); [lia|].
      pose proof (zlen_nonneg c) as Zc.
      assert (L2' : part_offset (pk_header p2) q2 + zlen c <= zlen (pk_file p2)).
      { rewrite (part_offset_at _ _ _ _ _ H2'). rewrite (ho_file _ _ H2'), zlen_app, (zlen_enc_header _ (ho_wf _ _ H2')).
        rewrite map_app, concat_app, zlen_app. cbn [map snd] in ROOM |- *. lia. }
      rewrite S1, (cmp_data_ok _ _ _ _ _ _ Zc O1 O2 L1 L2') by lia. rewrite D1.
      destruct (IH (a ++ [(q, c)]) (Ok tt)) as (ls & -> & F2); [now rewrite <- app_assoc|].
      unfold after. cbn [fst snd app]. eexists. split; [reflexivity|]. constructor; [|exact F2]. cbn [line_is]. split; [|reflexivity].
      rewrite part_eqb_dec. destruct (parth_dec q q2) as [Eq|Nq]; [|now rewrite andb_false_r].
      assert (ZL : zlen c = zlen c2) by (subst q2; congruence). rewrite ZL, D2, andb_true_r.
      destruct (bytes_dec c c2) as [<-|D]; [rewrite BaseLemmas.bytes_eqb_refl; reflexivity|]. apply bytes_eqb_neq in D. now rewrite D.
    + rewrite F. destruct (IH (a ++ [e]) (Err E_NOT_FOUND)) as (ls & -> & F2); [now rewrite <- app_assoc|].
      unfold after. cbn [fst snd app]. eexists. split; [reflexivity|]. constructor; [|exact F2]. split; reflexivity.
Qed.
Lemma parts1_ok rc : exists ls,
  cmp_parts1 (pk_header p1) (pk_header p2) (pk_file p1) (pk_file p2) (h_parts (pk_header p1)) rc = (ls, Ok (last_of (found_part es2) es1 rc)) /\
  Forall2 line_is ls (map (fun e => RPart (part_mark es2 e) (fst e)) es1).
Proof using All. rewrite (ho_table _ _ H1). apply (parts1_live es1 [] rc eq_refl). Qed.
Lemma parts2_live : forall b a rc, es2 = a ++ b -> exists ls,
  cmp_parts2 (pk_header p1) (map fst b ++ repeat zero_part (32 - length es2)) rc = (ls, last_of (found_part es1) b rc) /\
  Forall2 line_is ls (map (fun e => RPart MMinus (fst e)) (filter (fun e => negb (existsb (same_id e) es1)) b)).
Proof using All.
  induction b as [|e b IH]; intros a rc E.
  - exists []. split; [|constructor]. cbn [map app]. induction (32 - length es2)%nat; [reflexivity|]. cbn [repeat cmp_parts2]. exact IHn.
  - assert (Hin : In e es2) by (rewrite E; apply in_elt).
    pose proof (ho_nonzero _ _ H2) as NZ. rewrite Forall_forall in NZ. specialize (NZ e Hin). cbn beta in NZ.
    pose proof (find_part p1 es1 e H1 NZ) as F. rewrite last_of_cons. cbn [filter]. unfold found_part at 2. rewrite find_existsb.
    cbn [map app cmp_parts2]. destruct (Z.eqb_spec (p_id (fst e)) 0); [contradiction|].
    destruct (find (same_id e) es1) as [e2|].
    + destruct F as (a2 & b2 & _ & _ & -> & _). cbn [negb]. apply (IH (a ++ [e])). now rewrite <- app_assoc.
    + rewrite F. cbn [negb map]. destruct (IH (a ++ [e]) (Err E_NOT_FOUND)) as (ls & -> & F2); [now rewrite <- app_assoc|].
      unfold after. cbn [fst snd app]. eexists. split; [reflexivity|]. constructor; [|exact F2]. split; reflexivity.
Qed.
Lemma parts2_ok rc : exists ls,
  cmp_parts2 (pk_header p1) (h_parts (pk_header p2)) rc = (ls, last_of (found_part es1) es2 rc) /\
  Forall2 line_is ls (map (fun e => RPart MMinus (fst e)) (filter (fun e => negb (existsb (same_id e) es1)) es2)).
Proof using All. rewrite (ho_table _ _ H2). apply (parts2_live es2 [] rc eq_refl). Qed.
End Parts.

(* ---- the whole command ---- *)
Lemma read_header p es : holds p es ->
  zlen (fread_at (pk_file p) 0 HDR_SIZE) = HDR_SIZE /\ dec_header (fread_at (pk_file p) 0 HDR_SIZE) = pk_header p.
Proof.
  intros H. pose proof (zlen_enc_header _ (ho_wf _ _ H)) as L. unfold fread_at, HDR_SIZE. rewrite slice_0.
  rewrite (ho_file _ _ H), ztake_app_l by lia. rewrite ztake_all by lia. split; [exact L|]. apply dec_enc_header. apply (ho_wf _ _ H).
Qed.
Lemma last_status ms1 (es1 : list (parth * bytes)) ms2 (es2 : list (parth * bytes)) :
  last_of (found_part es1) es2 (last_of (found_part es2) es1 (last_of (found_meta ms1) ms2 (Ok tt))) = compare_status ms1 es1 ms2 es2.
Proof.
  unfold last_of, compare_status, found_part, found_meta. destruct (rev es2) as [|e r] eqn:R2.
  - destruct (rev es1) as [|e1 r1]; [destruct (rev ms2); reflexivity|].
    assert (es2 = []) by (rewrite <- (rev_involutive es2), R2; reflexivity). subst es2. reflexivity.
  - reflexivity.
Qed.
Lemma compare_reports p1 p2 es1 es2 ms1 ms2 junk : package p1 ms1 es1 -> package p2 ms2 es2 ->
  zlen junk = 64 ->
  (forall e, In e ms1 -> exists e2, find (same_key e) ms2 = Some e2 /\ zlen (e_val e2) = zlen (e_val e)) ->
  Forall (printable 64) (ms1 ++ ms2) ->
  Forall (fun e => existsb (same_id e) es2 = true -> zlen (snd e) <= behind (p_id (fst e)) es2) es1 ->
  Forall2 line_is (fst (cli_compare junk (pk_file p1) (pk_file p2))) (report MMinus ms1 es1 ms2 es2) /\
  snd (cli_compare junk (pk_file p1) (pk_file p2)) = compare_status ms1 es1 ms2 es2.
Proof.
  intros (H1 & V1 & M1) (H2 & V2 & M2) J SUB P ROOM. unfold cli_compare.
  destruct (read_header _ _ H1) as [L1 D1]. destruct (read_header _ _ H2) as [L2 D2].
  rewrite L1, L2, D1, D2, Z.eqb_refl. cbn [negb]. rewrite V1, V2. cbn [bind].
  apply Forall_app in P as [P1 P2].
  destruct (metas1_ok _ _ ms1 ms2 (ho_wf _ _ H1) (ho_wf _ _ H2) M1 M2 P1 SUB (h_meta (pk_header p1)) 0 junk eq_refl J) as (ls1 & buf & -> & Lb & F1).
  cbn [next]. unfold after at 1.
  assert (P2' : Forall (fun e => existsb (same_key e) ms1 = false -> printable 64 e) ms2) by (eapply Forall_impl; [|exact P2]; auto).
  destruct (metas2_ok _ _ ms1 ms2 (ho_wf _ _ H2) M1 M2 P2' (h_meta (pk_header p2)) 0 buf (Ok tt) eq_refl Lb) as (ls2 & -> & F2).
  cbn [next]. unfold after at 1.
  destruct (parts1_ok p1 p2 es1 es2 H1 H2 ROOM (last_of (found_meta ms1) (skipn 0 ms2) (Ok tt))) as (ls3 & -> & F3).
  cbn [next]. unfold after at 1.
  destruct (parts2_ok p1 p2 es1 es2 H1 H2 ROOM (last_of (found_part es2) es1 (last_of (found_meta ms1) (skipn 0 ms2) (Ok tt)))) as (ls4 & -> & F4).
  cbn [fst snd]. rewrite skipn_O in *. split; [|apply last_status].
  unfold report. repeat apply Forall2_app; assumption.
Qed.

(* ---- entries that make the command crash ---- *)
Lemma bin2hex_loop_keeps : forall d n buf, zlen (fst (bin2hex_loop d n buf)) = zlen buf /\ snd (bin2hex_loop d n buf) <> Stuck.
Proof.
  assert (PK : forall b i v b', poke b i v = Ok b' -> zlen b' = zlen b).
  { intros b i v b'. unfold poke. destruct (_ && _) eqn:E; [|discriminate]. intros X. injection X as <-.
    apply zlen_splice; [lia|]. change (zlen [v]) with 1. lia. }
  induction d as [|b r IH]; intros n buf; cbn [bin2hex_loop]; [split; [reflexivity|discriminate]|].
  destruct (poke buf n _) as [b1|e| |] eqn:P1; cbn [fst snd]; try (split; [reflexivity|discriminate]).
  apply PK in P1. destruct (_ >? _); cbn [fst snd]; [split; [exact P1|discriminate]|].
  destruct (poke b1 (n + 1) _) as [b2|e| |] eqn:P2; cbn [fst snd]; try (split; [exact P1|discriminate]).
  apply PK in P2. destruct (_ >? _); cbn [fst snd]; [split; [congruence|discriminate]|].
  destruct (IH (n + 2) b2) as [A B]. split; [congruence|exact B].
Qed.
Lemma bin2hex_keeps d buf : zlen (fst (bin2hex d buf)) = zlen buf /\ snd (bin2hex d buf) <> Stuck.
Proof.
  unfold bin2hex. destruct (bin2hex_loop_keeps d 0 buf) as [A B]. destruct (bin2hex_loop d 0 buf) as [b [n|e| |]]; cbn [fst snd] in *; try (split; [exact A|congruence]).
  destruct (poke b n 0) as [b2|e| |] eqn:P; cbn [fst snd]; try (split; [exact A|discriminate]). split; [|discriminate]. rewrite <- A.
  unfold poke in P. destruct (_ && _) eqn:E; [|discriminate]. injection P as <-. apply zlen_splice; [lia|]. change (zlen [0]) with 1. lia.
Qed.
Lemma snprintf_len buf s : zlen (snprintf buf s) = zlen buf.
Proof.
  unfold snprintf. destruct (Z.eqb_spec (zlen buf) 0); [reflexivity|]. pose proof (zlen_nonneg buf). pose proof (zlen_nonneg s).
  assert (L : zlen (ztake (zlen buf - 1) s ++ [0]) <= zlen buf) by (rewrite zlen_app, zlen_ztake; change (zlen [0]) with 1; lia).
  rewrite zlen_splice; [reflexivity|lia|lia].
Qed.
Lemma meta_to_string_keeps h i buf : zlen (fst (meta_to_string h i buf)) = zlen buf /\ snd (meta_to_string h i buf) <> Stuck.
Proof.
  unfold meta_to_string. destruct (nth_error (h_meta h) i) as [m|]; [|split; [reflexivity|discriminate]]. cbv zeta.
  assert (B : forall b, zlen (fst (drop_result (bin2hex b buf))) = zlen buf /\ snd (drop_result (bin2hex b buf)) <> Stuck).
  { intros b. destruct (bin2hex_keeps b buf) as [X Y]. destruct (bin2hex b buf) as [b' [u|e| |]]; cbn [fst snd drop_result] in *; split; auto; discriminate. }
  assert (U : forall b, zlen (fst (drop_result (uuid_to_string b buf))) = zlen buf /\ snd (drop_result (uuid_to_string b buf)) <> Stuck).
  { intros b. unfold uuid_to_string. destruct (_ <? 37); [split; [reflexivity|discriminate]|]. cbv zeta.
    rewrite Z.gtb_ltb. destruct (Z.ltb_spec (zlen buf) (zlen (uuid_unparse_x false b ++ [0]))); cbn [drop_result fst snd]; [split; [reflexivity|discriminate]|].
    split; [|discriminate]. apply zlen_splice; [lia|]. lia. }
  unfold with_bytes. repeat match goal with
  | |- context [if (_ || _) then _ else _] => destruct (_ || _)
  | |- context [if (m_id m =? ?c) then _ else _] => destruct (m_id m =? c)
  | |- context [match meta_read ?a ?b ?c ?d with _ => _ end] => destruct (meta_read a b c d) eqn:?
  end; cbn [fst snd]; auto; try (split; [first [reflexivity|apply snprintf_len]|discriminate]).
  all: pose proof (zlen_nonneg buf) as ZB.
  all: try (rewrite Z.gtb_ltb; destruct (Z.ltb_spec (zlen buf) (m_size m)); cbn [fst snd]; split; try discriminate; try reflexivity;
    match goal with R : meta_read _ _ _ _ = Ok _ |- _ => unfold meta_read in R; destruct (nth_error (h_meta h) i); [|discriminate];
      destruct (_ >? _); [discriminate|]; injection R as <- end;
    apply zlen_splice; [lia|]; rewrite zlen_slice; lia).
  1-3: destruct (m_size m >? zlen buf); cbn [fst snd]; split; first [reflexivity|discriminate].
  destruct (Z.eqb_spec (zlen buf) 0); split; try discriminate; try reflexivity.
  apply zlen_splice; [lia|]. change (zlen [0]) with 1. lia.
Qed.
Lemma shown_ends h i buf : shown h i buf = UB \/ exists b s, shown h i buf = Ok (b, s) /\ zlen b = zlen buf.
Proof.
  unfold shown. destruct (meta_to_string_keeps h i buf) as [L N]. destruct (meta_to_string h i buf) as [b [u|e| |]]; cbn [fst snd] in *; auto; try congruence.
  all: unfold c_text; destruct (cstr b); cbn [bind]; eauto.
Qed.
Lemma meta_read_ends h i n : meta_read h i 0 n = UB \/ exists d, meta_read h i 0 n = Ok d.
Proof. unfold meta_read. destruct (nth_error (h_meta h) i); auto. destruct (_ >? _); eauto. Qed.
Lemma metas1_result h1 h2 : forall l i buf, snd (cmp_metas1 h1 h2 i l buf) = UB \/ exists b, snd (cmp_metas1 h1 h2 i l buf) = Ok b /\ zlen b = zlen buf.
Proof.
  induction l as [|m l IH]; intros i buf; cbn [cmp_metas1]; [right; eexists; split; reflexivity|].
  destruct (m_id m =? 0); [apply IH|]. destruct (get_meta h2 (m_id m) (m_ref m)); cbn [bind]; auto.
  destruct (meta_read_ends h1 i (m_size m)) as [->|(d1 & ->)]; cbn [bind snd]; auto.
  destruct (meta_read_ends h2 a (m_size m)) as [->|(d2 & ->)]; cbn [bind snd]; auto.
  destruct (shown_ends h1 i buf) as [->|(buf1 & s & -> & Lb)]; cbn [bind snd]; auto. unfold after. cbn [snd].
  destruct (IH (S i) buf1) as [E|(b & E & L)]; [left; exact E|right; exists b; split; [exact E|congruence]].
Qed.
Lemma metas1_crash h1 h2 ms1 ms2 e : wf_header h1 -> wf_header h2 ->
  metas_are (h_meta h1) (h_metadata h1) ms1 -> metas_are (h_meta h2) (h_metadata h2) ms2 -> In e ms1 ->
  (find (same_key e) ms2 = None \/ (hash_entry e /\ 32 <= zlen (e_val e))) ->
  forall l i buf, skipn i (h_meta h1) = l -> zlen buf = 64 -> In e (skipn i ms1) -> snd (cmp_metas1 h1 h2 i l buf) = UB.
Proof.
  intros W1 W2 M1 M2 _ Bad. induction l as [|m l IH]; intros i buf Hl BL Hin.
  - exfalso. rewrite skipn_all2 in Hin; [destruct Hin|]. pose proof M1 as (L & _ & L' & _).
    assert (X : length (skipn i (h_meta h1)) = 0%nat) by now rewrite Hl. rewrite skipn_length in X. lia.
  - rewrite (metas1_step h1 h2 ms1 ms2 W1 W2 M1 M2 i l m buf Hl). destruct (skipn_nth _ _ _ _ Hl) as [Hm Hl'].
    destruct (slot_cases h1 ms1 i m M1 Hm) as [(x & Hx & Ek)|(Ek & Z0)]; rewrite Ek in *; [|destruct Hin].
    destruct (find (same_key x) ms2) as [x2|] eqn:F; [|reflexivity].
    pose proof (lookup h2 ms2 x (live_nonzero h1 ms1 x M1 (nth_error_In _ _ Hx)) M2) as Lk. rewrite F in Lk. destruct Lk as (j & -> & _). cbn [bind].
    destruct (meta_read_ends h2 j (zlen (e_val x))) as [->|(d2 & ->)]; cbn [bind snd]; [reflexivity|].
    destruct (live_slot h1 ms1 i x M1 Hx) as (m' & Hm' & E1 & E2 & E3 & O & IN & V). assert (m' = m) by congruence. subst m'.
    destruct Hin as [<-|Hin].
    + destruct Bad as [Bad|[Hh Z32]]; [congruence|].
      assert (U : shown h1 i buf = UB).
      { unfold shown. pose proof (salt_overflow h1 i m buf Hm) as S. unfold hash_entry in Hh. rewrite <- E1 in Hh.
        specialize (S Hh (proj1 (wf_metadata _ W1)) O ltac:(unfold METADATA_BYTES; lia) ltac:(lia)).
        destruct (meta_to_string h1 i buf) as [b r]. cbn [snd] in S. subst r. reflexivity. }
      rewrite U. reflexivity.
    + destruct (shown_ends h1 i buf) as [->|(buf1 & s & -> & Lb)]; [reflexivity|]. cbn [bind].
      unfold after. cbn [snd]. apply IH; [exact Hl'|lia|exact Hin].
Qed.
Lemma metas2_crash h1 h2 ms1 ms2 e : wf_header h2 ->
  metas_are (h_meta h1) (h_metadata h1) ms1 -> metas_are (h_meta h2) (h_metadata h2) ms2 ->
  find (same_key e) ms1 = None -> hash_entry e -> 32 <= zlen (e_val e) ->
  forall l i buf rc, skipn i (h_meta h2) = l -> zlen buf = 64 -> In e (skipn i ms2) -> snd (cmp_metas2 h1 h2 i l buf rc) = UB.
Proof.
  intros W2 M1 M2 Fe Hh Z32. induction l as [|m l IH]; intros i buf rc Hl BL Hin.
  - exfalso. rewrite skipn_all2 in Hin; [destruct Hin|]. pose proof M2 as (L & _ & L' & _).
    assert (X : length (skipn i (h_meta h2)) = 0%nat) by now rewrite Hl. rewrite skipn_length in X. lia.
  - destruct (skipn_nth _ _ _ _ Hl) as [Hm Hl'].
    destruct (slot_cases h2 ms2 i m M2 Hm) as [(x & Hx & Ek)|(Ek & Z0)]; rewrite Ek in *; [|destruct Hin]. cbn [cmp_metas2].
    destruct (live_slot h2 ms2 i x M2 Hx) as (m' & Hm' & E1 & E2 & E3 & O & IN & V). assert (m' = m) by congruence. subst m'.
    pose proof (live_nonzero h2 ms2 x M2 (nth_error_In _ _ Hx)) as NZ. rewrite E1, E2.
    destruct (Z.eqb_spec (e_id x) 0); [contradiction|]. pose proof (lookup h1 ms1 x NZ M1) as Lk.
    destruct Hin as [->|Hin].
    + rewrite Fe in Lk. rewrite Lk.
      assert (U : shown h2 i buf = UB).
      { unfold shown. pose proof (salt_overflow h2 i m buf Hm) as S. unfold hash_entry in Hh. rewrite <- E1 in Hh.
        specialize (S Hh (proj1 (wf_metadata _ W2)) O ltac:(unfold METADATA_BYTES; lia) ltac:(lia)).
        destruct (meta_to_string h2 i buf) as [b r]. cbn [snd] in S. subst r. reflexivity. }
      rewrite U. reflexivity.
    + destruct (find (same_key x) ms1) as [x1|].
      * destruct Lk as (j & -> & _). now apply IH.
      * rewrite Lk. destruct (shown_ends h2 i buf) as [->|(buf1 & s & -> & Lb)]; [reflexivity|]. unfold after. cbn [snd]. apply IH; auto. lia.
Qed.
(* an entry that file 2 lacks, or a salt or root hash that is printed *)
Lemma compare_crashes p1 p2 es1 es2 ms1 ms2 junk : package p1 ms1 es1 -> package p2 ms2 es2 ->
  zlen junk = 64 ->
  (exists e, In e ms1 /\ (find (same_key e) ms2 = None \/ (hash_entry e /\ 32 <= zlen (e_val e)))) \/
  (exists e, In e ms2 /\ find (same_key e) ms1 = None /\ hash_entry e /\ 32 <= zlen (e_val e)) ->
  snd (cli_compare junk (pk_file p1) (pk_file p2)) = UB.
Proof.
  intros (H1 & V1 & M1) (H2 & V2 & M2) J Bad. unfold cli_compare.
  destruct (read_header _ _ H1) as [L1 D1]. destruct (read_header _ _ H2) as [L2 D2].
  rewrite L1, L2, D1, D2, Z.eqb_refl. cbn [negb]. rewrite V1, V2. cbn [bind].
  assert (N : forall A ls (r : res A) k, r = UB -> snd (next (ls, r) k) = UB) by (intros A ls r k ->; reflexivity).
  destruct Bad as [(e & Hin & Bad)|(e & Hin & Fe & Hh & Z32)].
  - pose proof (metas1_crash _ _ ms1 ms2 e (ho_wf _ _ H1) (ho_wf _ _ H2) M1 M2 Hin Bad (h_meta (pk_header p1)) 0 junk eq_refl J Hin) as U.
    destruct (cmp_metas1 _ _ _ _ _) as [ls r]. now apply N.
  - pose proof (metas1_result (pk_header p1) (pk_header p2) (h_meta (pk_header p1)) 0 junk) as R.
    destruct (cmp_metas1 _ _ _ _ _) as [ls r]. cbn [snd] in R. destruct R as [R|(b & -> & Lb)]; [now apply N|].
    cbn [next]. unfold after at 1. cbn [snd].
    pose proof (metas2_crash (pk_header p1) (pk_header p2) ms1 ms2 e (ho_wf _ _ H2) M1 M2 Fe Hh Z32 (h_meta (pk_header p2)) 0 b (Ok tt) eq_refl ltac:(lia) Hin) as U.
    destruct (cmp_metas2 _ _ _ _ _ _) as [ls2 r2]. now apply N.
Qed.
(* a package compared with itself *)
Lemma find_self {A} (f : A -> A -> bool) (g : A -> Z * Z) (l : list A) e : (forall x y, f x y = true <-> g y = g x) -> NoDup (map g l) -> In e l ->
  find (f e) l = Some e.
Proof.
  intros X N. induction l as [|x l IH]; intros I; [destruct I|]. cbn [map] in N. inversion N as [|? ? N1 N2]; subst. cbn [find].
  destruct I as [->|I].
  - replace (f e e) with true; [reflexivity|]. symmetry. now apply X.
  - destruct (f e x) eqn:E; [|now apply IH]. apply X in E. elim N1. rewrite E. now apply in_map.
Qed.
Lemma same_key_iff x y : same_key x y = true <-> e_key y = e_key x.
Proof.
  unfold same_key, e_key. rewrite andb_true_iff, !Z.eqb_eq. split; [intros [-> ->]; reflexivity|intros E; injection E as -> ->; auto].
Qed.
Lemma same_id_iff x y : same_id x y = true <-> (p_id (fst y), 0) = (p_id (fst x), 0).
Proof. unfold same_id. rewrite Z.eqb_eq. split; [intros ->; reflexivity|intros E; injection E as ->; auto]. Qed.
Lemma behind_in (es : list (parth * bytes)) e : In e es -> NoDup (map (fun e : parth * bytes => p_id (fst e)) es) -> zlen (snd e) <= behind (p_id (fst e)) es.
Proof.
  induction es as [|x es IH]; intros I N; [destruct I|]. cbn [map] in N. inversion N as [|? ? N1 N2]; subst. cbn [behind].
  destruct I as [->|I].
  - rewrite Z.eqb_refl. cbn [map concat]. rewrite zlen_app. pose proof (zlen_nonneg (concat (map snd es))). lia.
  - destruct (Z.eqb_spec (p_id (fst x)) (p_id (fst e))) as [E|E]; [|now apply IH]. elim N1. rewrite E. now apply (in_map (fun e : parth * bytes => p_id (fst e))).
Qed.
Lemma compare_itself p ms es junk : package p ms es -> zlen junk = 64 -> Forall (printable 64) ms ->
  Forall2 line_is (fst (cli_compare junk (pk_file p) (pk_file p))) (map (RMeta MSame) ms ++ map (fun e => RPart MSame (fst e)) es) /\
  snd (cli_compare junk (pk_file p) (pk_file p)) = Ok tt.
Proof.
  intros P J F. pose proof P as (H & V & M).
  assert (Nm : NoDup (map e_key ms)) by (apply metas_are_iff in M; tauto).
  pose proof (ho_distinct _ _ H) as Np.
  assert (Np' : NoDup (map (fun e : parth * bytes => (p_id (fst e), 0)) es)).
  { rewrite <- (map_map (fun e : parth * bytes => p_id (fst e)) (fun i => (i, 0))). apply FinFun.Injective_map_NoDup; [|exact Np]. intros a b E. now injection E. }
  assert (Fm : forall e, In e ms -> find (same_key e) ms = Some e) by (intros e I; apply (find_self same_key e_key); auto; intros; apply same_key_iff).
  assert (Fp : forall e, In e es -> find (same_id e) es = Some e).
  { intros e I. apply (find_self same_id (fun e : parth * bytes => (p_id (fst e), 0))); auto. intros; apply same_id_iff. }
  destruct (compare_reports p p es es ms ms junk P P J) as [A B].
  - intros e I. exists e. auto.
  - apply Forall_app. auto.
  - apply Forall_forall. intros e I _. now apply behind_in.
  - assert (Fe : forall {A} (f : A -> A -> bool) (l : list A), (forall e, In e l -> find (f e) l = Some e) -> filter (fun e => negb (existsb (f e) l)) l = []).
    { intros T f l X. rewrite (filter_ext_in _ (fun _ => false)).
      - clear. induction l; auto.
      - intros x I. rewrite find_existsb, (X x I). reflexivity. }
    unfold report in A. rewrite !Fe in A by assumption. cbn [map] in A. rewrite app_nil_r in A. cbn [app] in A.
    split.
    + rewrite (map_ext_in _ (RMeta MSame)) in A.
      * rewrite (map_ext_in (fun e => RPart (part_mark es e) (fst e)) (fun e => RPart MSame (fst e))) in A; [exact A|].
        intros e I. unfold part_mark. rewrite (Fp e I). destruct (parth_dec _ _); [|contradiction]. destruct (bytes_dec _ _); [reflexivity|contradiction].
      * intros e I. unfold meta_mark. rewrite (Fm e I). destruct (bytes_dec _ _); [reflexivity|contradiction].
    + rewrite B. unfold compare_status. destruct (rev es) as [|e r] eqn:R.
      * destruct (rev ms) as [|e r] eqn:R'; [reflexivity|]. rewrite find_existsb, (Fm e); [reflexivity|]. apply in_rev. rewrite R'. now left.
      * rewrite find_existsb, (Fp e); [reflexivity|]. apply in_rev. rewrite R. now left.
Qed.
