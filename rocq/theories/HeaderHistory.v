(* HeaderHistory.v -- metadata histories, failure behaviour, safety of accepted
   headers, signature extraction, strings *)
From Coq Require Import String.
From Verif Require Import BaseLemmas HeaderModel HeaderSpec HeaderOps CodecProofs PartProofs MetaProofs.

(* [h'] differs from [h] at most in the metadata table and block *)
Definition same_but_meta (h h' : header) : Prop :=
  h' = with_metadata (with_meta h (h_meta h')) (h_metadata h').
Lemma same_but_meta_refl h : same_but_meta h h.
Proof. destruct h; reflexivity. Qed.
Lemma same_but_meta_trans a b c : same_but_meta a b -> same_but_meta b c -> same_but_meta a c.
Proof. unfold same_but_meta. intros -> ->. destruct a; reflexivity. Qed.

Lemma run_meta_spec h live o h' x :
  metas_are (h_meta h) (h_metadata h) live -> meta_op_ok o ->
  run_meta h o = (h', x) -> x <> Err E_NO_SPACE_LEFT -> x <> UB ->
  exists live', spec_meta live o x live' /\ metas_are (h_meta h') (h_metadata h') live' /\
                same_but_meta h h'.
Proof.
  intros Hm Hok Hrun Hns Hub. destruct o as [id ref size | id ref k d | id ref]; cbn [run_meta meta_op_ok] in *.
  - destruct Hok as [Hid Hsz].
    pose proof (add_meta_spec h live id ref size Hid Hm) as H.
    destruct (find_index _ live) as [i|] eqn:Hf.
    + rewrite H in Hrun. injection Hrun as <- <-. exists live. split; [|split; auto using same_but_meta_refl].
      apply SM_add_exists. apply find_key_Some in Hf as (a & v & b & -> & _).
      rewrite map_app, in_app_iff. right. now left.
    + destruct (Nat.eqb_spec (length live) 32) as [E|E].
      * rewrite H in Hrun. injection Hrun as <- <-. contradiction.
      * destruct H as (m & Hn & Hm0 & H). rewrite H in Hrun. unfold METADATA_BYTES in Hrun.
        destruct (Z.gtb_spec (meta_end live + size) 1920).
        -- injection Hrun as <- <-. contradiction.
        -- injection Hrun as <- <-.
           assert (Hroom : (length live < 32)%nat) by (destruct Hm as (_ & _ & ? & _); lia).
           exists (live ++ [mkEntry id ref (slice (meta_end live) size (h_metadata h))]).
           assert (Hv : zlen (slice (meta_end live) size (h_metadata h)) = size).
           { destruct Hm as (_ & Hmd & _). rewrite zlen_slice. pose proof (meta_end_nonneg live). lia. }
           split; [|split].
           ++ rewrite <- Hv at 1. apply SM_add; auto; [now apply find_key_None | lia].
           ++ cbn [h_meta h_metadata with_meta]. apply metas_are_add; auto; lia.
           ++ destruct h; reflexivity.
  - destruct Hok as [Hid Hk]. rewrite get_meta_find in Hrun.
    pose proof Hm as Hm'. apply metas_are_iff in Hm' as (Hlen & Hmd & Hnd & Hnz & Hlay & Hdat).
    rewrite (find_key_layout _ _ _ id ref Hid Hlay) in Hrun.
    destruct (find_index _ live) as [i|] eqn:Hf.
    + apply find_key_Some in Hf as (a & v & b & -> & <-).
      pose proof Hm as Hm2. destruct Hm2 as (_ & _ & _ & _ & _ & Hn & _).
      destruct (Hn (length a) (mkEntry id ref v)) as (Ho & Hs & m & Hm1 & E1 & E2 & E3 & E4).
      { rewrite nth_error_app2, Nat.sub_diag by lia. reflexivity. }
      rewrite firstn_app, Nat.sub_diag, firstn_all, firstn_O, app_nil_r in *. cbn [e_val e_id e_ref] in *.
      rewrite Hm1 in Hrun. rewrite E3 in Hrun.
      destruct (Z.leb_spec (k + zlen d) (zlen v)) as [Hr|Hr].
      * unfold meta_write in Hrun. rewrite Hm1 in Hrun. unfold METADATA_BYTES in Hrun. rewrite E4 in Hrun.
        destruct (Z.gtb_spec (meta_end a + k + zlen d) 1920); [lia|]. injection Hrun as <- <-.
        exists (a ++ mkEntry id ref (splice k d v) :: b). split; [|split].
        -- now apply SM_write.
        -- cbn [h_meta h_metadata with_metadata]. now apply metas_are_write.
        -- destruct h; reflexivity.
      * injection Hrun as <- <-. eexists. split; [apply SM_write_range; lia|]. split; auto using same_but_meta_refl.
    + injection Hrun as <- <-. exists live. split; [|split; auto using same_but_meta_refl].
      apply SM_missing with (id := id) (ref := ref); [now apply find_key_None|]. right; eauto.
  - rewrite get_meta_find in Hrun.
    pose proof Hm as Hm'. apply metas_are_iff in Hm' as (Hlen & Hmd & Hnd & Hnz & Hlay & Hdat).
    rewrite (find_key_layout _ _ _ id ref Hok Hlay) in Hrun.
    destruct (find_index _ live) as [i|] eqn:Hf.
    + apply find_key_Some in Hf as (a & v & b & -> & <-).
      destruct (Nat.lt_ge_cases (length (a ++ mkEntry id ref v :: b)) 32) as [Hroom|Hfull].
      * destruct (del_meta_exact h a id ref v b Hm Hroom) as (h1 & Hd & Hm1 & Hfr).
        rewrite Hd in Hrun. injection Hrun as <- <-.
        eexists. split; [apply SM_del; auto|]. split; auto.
      * exfalso. apply Hub. rewrite del_meta_full_ub in Hrun; [now injection Hrun|].
        apply layout_app in Hlay as (s1 & s2 & Hs & Hl & L1 & L2).
        rewrite Hs in *. rewrite app_length in *. cbn [length] in *.
        destruct s2 as [|m s2]; [contradiction|]. cbn [layout] in L2. destruct L2 as (_&_&_&_&L2).
        replace (skipn (S (length a)) (s1 ++ m :: s2)) with s2.
        2:{ rewrite <- Hl. replace (s1 ++ m :: s2) with ((s1 ++ [m]) ++ s2) by now rewrite <- app_assoc.
            rewrite skipn_app, skipn_all2 by (rewrite app_length; cbn [length]; lia).
            replace (S (length s1) - length (s1 ++ [m]))%nat with 0%nat by (rewrite app_length; cbn [length]; lia).
            reflexivity. }
        cbn [length] in Hlen. pose proof (layout_length _ _ _ L2) as Hle.
        assert (Hsb : length s2 = length b) by lia.
        apply Forall_app in Hnz as [_ Hnz]. inversion Hnz as [|? ? _ Hnb]; subst.
        clear - L2 Hsb Hnb. revert L2 Hsb. generalize (0 + meta_end a + align8 (zlen (e_val (mkEntry id ref v)))) as off.
        revert s2. induction Hnb as [|e b He Hb IH]; intros s2 off L2 Hsb; destruct s2 as [|m s2]; try discriminate; [constructor|].
        cbn [layout] in L2. destruct L2 as (E1&_&_&_&L2). constructor; [lia|]. eapply IH; eauto.
    + injection Hrun as <- <-. exists live. split; [|split; auto using same_but_meta_refl].
      apply SM_missing with (id := id) (ref := ref); [now apply find_key_None|]. now left.
Qed.

Lemma run_metas_spec os : forall h live h' xs,
  metas_are (h_meta h) (h_metadata h) live -> Forall meta_op_ok os ->
  run_metas h os = (h', xs) -> ~ In (Err E_NO_SPACE_LEFT) xs -> ~ In UB xs ->
  exists live', spec_metas live os xs live' /\ metas_are (h_meta h') (h_metadata h') live' /\
                same_but_meta h h'.
Proof.
  induction os as [|o os IH]; intros h live h' xs Hm Hok Hrun Hns Hub; cbn [run_metas] in Hrun.
  - injection Hrun as <- <-. exists live. split; [constructor|split; auto using same_but_meta_refl].
  - destruct (run_meta h o) as [h1 x] eqn:E1. destruct (run_metas h1 os) as [h2 ys] eqn:E2.
    injection Hrun as <- <-. inversion Hok as [|? ? Ho Hos]; subst.
    destruct (run_meta_spec h live o h1 x Hm Ho E1) as (l1 & S1 & M1 & F1).
    { intros ->. apply Hns. now left. } { intros ->. apply Hub. now left. }
    destruct (IH h1 l1 h2 ys M1 Hos E2) as (l2 & S2 & M2 & F2).
    { intros H. apply Hns. now right. } { intros H. apply Hub. now right. }
    exists l2. split; [econstructor; eauto|]. split; auto. eapply same_but_meta_trans; eauto.
Qed.

Lemma metas_are_init : metas_are (h_meta init_header) (h_metadata init_header) [].
Proof.
  apply metas_are_iff. split; [reflexivity|]. split; [reflexivity|]. split; [constructor|].
  split; [constructor|]. split; [|exact I].
  cbn [h_meta init_header layout]. apply Forall_forall. intros m Hm. apply repeat_spec in Hm as ->. reflexivity.
Qed.

(* what the table guarantees to a client *)
Lemma metas_are_client h live :
  metas_are (h_meta h) (h_metadata h) live ->
  (* every stored value is found under its key, aligned and inside the block *)
  (forall e, In e live -> exists i m,
     get_meta h (e_id e) (e_ref e) = Ok i /\ nth_error (h_meta h) i = Some m /\
     m_id m = e_id e /\ m_ref m = e_ref e /\ m_size m = zlen (e_val e) /\
     m_offset m mod 8 = 0 /\ 0 <= m_offset m /\ m_offset m + m_size m <= 1920 /\
     slice (m_offset m) (m_size m) (h_metadata h) = e_val e) /\
  (* nothing else is found *)
  (forall id ref, id <> 0 -> ~ In (id, ref) (map e_key live) -> get_meta h id ref = Err E_NOT_FOUND) /\
  (* areas of different entries do not overlap *)
  (forall i j m n, (i < j < length live)%nat ->
     nth_error (h_meta h) i = Some m -> nth_error (h_meta h) j = Some n ->
     m_offset m + m_size m <= m_offset n).
Proof.
  intros Hm. pose proof Hm as Hm'. apply metas_are_iff in Hm' as (Hlen & Hmd & Hnd & Hnz & Hlay & Hdat).
  split; [|split].
  - intros e He. apply in_split in He as (a & b & ->). destruct e as [id ref v].
    assert (Hid : id <> 0). { apply Forall_app in Hnz as [_ H]. now inversion H. }
    destruct Hm as (_ & _ & _ & _ & _ & Hn & _).
    destruct (Hn (length a) (mkEntry id ref v)) as (Ho & Hs & m & Hm1 & E1 & E2 & E3 & E4).
    { rewrite nth_error_app2, Nat.sub_diag by lia. reflexivity. }
    rewrite firstn_app, Nat.sub_diag, firstn_all, firstn_O, app_nil_r in *. cbn [e_val e_id e_ref] in *.
    exists (length a), m. pose proof (meta_end_nonneg a). pose proof (meta_end_mod a).
    rewrite E4, E3. repeat split; auto; try lia.
    rewrite get_meta_find, (find_key_layout _ _ _ id ref Hid Hlay), find_key_at; auto.
  - intros id ref Hid Hin. rewrite get_meta_find, (find_key_layout _ _ _ id ref Hid Hlay).
    apply find_key_None in Hin. now rewrite Hin.
  - intros i j m n Hij Hi Hj.
    destruct Hm as (_ & _ & _ & _ & _ & Hn & _).
    destruct (nth_error live i) as [e|] eqn:Ei; [|apply nth_error_None in Ei; lia].
    destruct (nth_error live j) as [f|] eqn:Ej; [|apply nth_error_None in Ej; lia].
    destruct (Hn i e Ei) as (_ & _ & m' & Hm1 & _ & _ & E3 & E4).
    destruct (Hn j f Ej) as (_ & _ & n' & Hn1 & _ & _ & F3 & F4).
    rewrite Hi in Hm1. injection Hm1 as <-. rewrite Hj in Hn1. injection Hn1 as <-.
    rewrite E3, E4, F4. pose proof (align8_ge (zlen (e_val e))).
    apply nth_error_split in Ei as (a & b & -> & <-).
    rewrite firstn_app, Nat.sub_diag, firstn_all, firstn_O, app_nil_r.
    replace (firstn j (a ++ e :: b)) with (a ++ e :: firstn (j - S (length a)) b).
    2:{ rewrite firstn_app, (firstn_all2 (n := j) a) by lia.
        replace (j - length a)%nat with (S (j - S (length a)))%nat by lia. reflexivity. }
    rewrite meta_end_app. cbn [meta_end]. pose proof (meta_end_nonneg (firstn (j - S (length a)) b)). lia.
Qed.

Lemma meta_history os h xs :
  Forall meta_op_ok os -> run_metas init_header os = (h, xs) ->
  ~ In (Err E_NO_SPACE_LEFT) xs -> ~ In UB xs ->
  exists live, spec_metas [] os xs live /\ metas_are (h_meta h) (h_metadata h) live /\
               same_but_meta init_header h.
Proof. intros Hok Hrun. apply run_metas_spec; auto. apply metas_are_init. Qed.

(* ---- failing add_meta ------------------------------------------------ *)
Lemma add_meta_loop_err id ref size off l l' e :
  add_meta_loop id ref size off l = (l', Err e) ->
  (e = E_EXISTS /\ l' = l) \/
  (e = E_NO_SPACE_LEFT /\ l' = l /\ Forall (fun m => m_id m <> 0) l) \/
  (e = E_NO_SPACE_LEFT /\ exists a m b o, l = a ++ m :: b /\ m_id m = 0 /\
     Forall (fun m => m_id m <> 0) a /\ l' = a ++ mkMeta id size o ref (m_pad m) :: b /\ o + size > 1920).
Proof.
  revert off l'; induction l as [|m l IH]; intros off l'; cbn [add_meta_loop].
  - intros [= <- <-]. right; left. auto.
  - destruct (Z.eqb_spec (m_id m) 0) as [E0|E0].
    + unfold METADATA_BYTES. destruct (Z.gtb_spec (off + size) 1920); intros [= <- <-].
      right; right. split; auto. exists [], m, l, off. repeat split; auto. lia.
    + destruct ((m_id m =? id) && (m_ref m =? ref)).
      * intros [= <- <-]. now left.
      * destruct (add_meta_loop _ _ _ _ l) as [r' x] eqn:E. destruct x; intros [= <- <-].
        destruct (IH _ _ E) as [(-> & ->) | [(-> & -> & H) | (-> & a & m' & b & o & -> & H1 & H2 & -> & H4)]].
        -- now left.
        -- right; left. auto.
        -- right; right. split; auto. exists (m :: a), m', b, o. repeat split; auto.
Qed.
(* C05 partial: all failures except the "data block full" one are atomic *)
Lemma add_meta_fail h id ref size h' e :
  add_meta h id ref size = (h', Err e) ->
  (e = E_EXISTS \/ (e = E_NO_SPACE_LEFT /\ Forall (fun m => m_id m <> 0) (h_meta h)) -> h' = h) /\
  (e = E_EXISTS \/ e = E_NO_SPACE_LEFT).
Proof.
  unfold add_meta. destruct (add_meta_loop id ref size 0 (h_meta h)) as [ms x] eqn:E. intros [= <- ->].
  destruct (add_meta_loop_err _ _ _ _ _ _ _ E) as [(-> & ->) | [(-> & -> & H) | (-> & a & m & b & o & H & H0 & H1 & -> & H3)]].
  - split; [destruct h; reflexivity | now left].
  - split; [destruct h; reflexivity | now right].
  - split; [|now right]. intros [Hc | [_ Hc]]; [discriminate|].
    rewrite H in Hc. apply Forall_app in Hc as [_ Hc]. inversion Hc; contradiction.
Qed.

(* ---- accepted headers ------------------------------------------------ *)
Lemma until_empty_prefix {A} (id : A -> Z) l : exists b, l = until_empty id l ++ b.
Proof.
  induction l as [|x l [b Hb]]; cbn [until_empty]; [now exists []|].
  destruct (id x =? 0); [now exists (x :: l)|]. exists b. cbn. now f_equal.
Qed.
Lemma until_empty_holefree {A} (id : A -> Z) a b :
  Forall (fun x => id x <> 0) a -> Forall (fun x => id x = 0) b -> until_empty id (a ++ b) = a.
Proof.
  intros Ha Hb. induction Ha as [|x a Hx Ha IH]; cbn [app until_empty].
  - destruct Hb as [|y b Hy Hb]; [reflexivity|]. cbn. now rewrite Hy.
  - destruct (Z.eqb_spec (id x) 0); [contradiction|]. now rewrite IH.
Qed.
(* hole-free: no used slot after an unused one *)
Definition no_holes {A} (id : A -> Z) (l : list A) : Prop :=
  exists a b, l = a ++ b /\ Forall (fun x => id x <> 0) a /\ Forall (fun x => id x = 0) b.

Lemma valid_header_safe_meta h id ref (anyref : bool) i :
  valid_header h = Ok tt -> no_holes m_id (h_meta h) -> id <> 0 ->
  get_meta_int h id ref (negb anyref) = Ok i ->
  exists m, nth_error (h_meta h) i = Some m /\ m_id m = id /\ m_offset m + m_size m <= 1920.
Proof.
  intros Hv (a & b & Hs & Ha & Hb) Hid Hg. apply valid_header_iff in Hv as (_ & _ & Hm & _).
  unfold metas_in_bounds in Hm. rewrite Hs, until_empty_holefree in Hm; auto.
  unfold get_meta_int in Hg. destruct (find_index _ (h_meta h)) as [j|] eqn:Hf; [|discriminate].
  injection Hg as ->. apply find_index_Some in Hf as (c & m & d & Hcd & <- & Hm1 & _).
  exists m. rewrite Hcd, nth_error_app2, Nat.sub_diag by lia. cbn [nth_error].
  apply andb_true_iff in Hm1 as [Hm1 _]. split; auto. split; [lia|].
  assert (Hin : In m (a ++ b)) by (rewrite <- Hs, Hcd, in_app_iff; right; now left).
  apply in_app_iff in Hin as [Hin|Hin].
  - rewrite Forall_forall in Hm. apply (Hm m Hin).
  - rewrite Forall_forall in Hb. specialize (Hb m Hin). lia.
Qed.
Lemma valid_header_safe_part h id i :
  valid_header h = Ok tt -> no_holes p_id (h_parts h) -> id <> 0 -> get_part h id = Ok i ->
  exists p, nth_error (h_parts h) i = Some p /\ p_id p = id /\
            ((p_size p + p_pad_bytes p) mod 2^64) mod 512 = 0.
Proof.
  intros Hv (a & b & Hs & Ha & Hb) Hid Hg. apply valid_header_iff in Hv as (_ & Hp & _ & _).
  unfold parts_aligned in Hp. rewrite Hs, until_empty_holefree in Hp; auto.
  unfold get_part in Hg. destruct (find_index _ (h_parts h)) as [j|] eqn:Hf; [|discriminate].
  injection Hg as ->. apply find_index_Some in Hf as (c & m & d & Hcd & <- & Hm1 & _).
  exists m. rewrite Hcd, nth_error_app2, Nat.sub_diag by lia. cbn [nth_error].
  split; auto. split; [lia|].
  assert (Hin : In m (a ++ b)) by (rewrite <- Hs, Hcd, in_app_iff; right; now left).
  apply in_app_iff in Hin as [Hin|Hin].
  - rewrite Forall_forall in Hp. apply (Hp m Hin).
  - rewrite Forall_forall in Hb. specialize (Hb m Hin). lia.
Qed.

(* ---- copyz_signature ------------------------------------------------- *)
Lemma copyz_signature_spec h n :
  wf_header h ->
  (1 <= h_signature_sz h <= Z.min 512 n ->
     copyz_signature h n = (with_signature h (zeros 512) 0, Ok (ztake (h_signature_sz h) (h_signature h))) /\
     zlen (ztake (h_signature_sz h) (h_signature h)) = h_signature_sz h) /\
  (~ 1 <= h_signature_sz h <= Z.min 512 n -> copyz_signature h n = (h, Err E_SIZE_ERROR)).
Proof.
  intros W. pose proof (wf_signature_sz _ W). destruct (wf_signature _ W) as [Hs _].
  unfold copyz_signature, SIGNATURE_MAX_BYTES.
  destruct (Z.gtb_spec (h_signature_sz h) 512); [split; [lia|auto]|].
  destruct (Z.eqb_spec (h_signature_sz h) 0); [split; [lia|auto]|].
  destruct (Z.gtb_spec (h_signature_sz h) n); [split; [lia|auto]|].
  split; [|lia]. intros _. split; [reflexivity|]. rewrite zlen_ztake. lia.
Qed.

(* ---- strings --------------------------------------------------------- *)
Lemma error_string_unknown c : ~ (-30 <= c <= 0) -> error_string c = "Unknown"%string.
Proof.
  intros H. unfold error_string.
  repeat match goal with
  | |- context [if ?c =? ?k then _ else _] =>
      replace (c =? k) with false by
        (symmetry; apply Z.eqb_neq; unfold E_FAILED, E_NOT_FOUND, E_SIZE_ERROR, E_NO_SPACE_LEFT,
         E_BAD_ALIGNMENT, E_SEEK_ERROR, E_NOT_SUPPORTED, E_NEEDS_MORE_DATA, E_WRITE_ERROR,
         E_DECOMPRESSOR_ERROR, E_COMPRESSOR_ERROR, E_PATCH_READ_ORIGIN_ERROR, E_PATCH_WRITE_ERROR,
         E_READ_ERROR, E_BAD_MAGIC, E_UNSUPPORTED_HASH_ALG, E_BUFFER_TOO_SMALL, E_FILE_NOT_FOUND,
         E_KEY_DECODE, E_VERIFY_FAIL, E_SIGN_FAIL, E_UNSUPPORTED_KEY, E_BAD_ROOT_HASH,
         E_BAD_PAYLOAD_HASH, E_MISSING_META_DATA, E_PACKAGE_UUID_MISMATCH,
         E_UNSUPPORTED_COMPRESSION, E_KEY_NOT_FOUND, E_KEYSTORE_ID_MISMATCH, E_EXISTS; lia)
  end. reflexivity.
Qed.
Definition codes : list Z := map (fun n => - Z.of_nat n) (seq 0 31).
Lemma codes_in c : -30 <= c <= 0 -> In c codes.
Proof.
  intros H. unfold codes. apply in_map_iff. exists (Z.to_nat (- c)). split; [lia|]. apply in_seq. lia.
Qed.
Lemma error_string_known c : -30 <= c <= 0 -> error_string c <> "Unknown"%string /\ error_string c <> ""%string.
Proof.
  intros H. apply codes_in in H. revert c H. apply Forall_forall. vm_compute. 
  repeat (constructor; [split; discriminate|]). constructor.
Qed.
Lemma error_string_inj c d :
  -30 <= c <= 0 -> -30 <= d <= 0 -> error_string c = error_string d -> c = d.
Proof.
  intros Hc Hd.
  assert (G : forallb (fun c => forallb (fun d => (c =? d) || negb (String.eqb (error_string c) (error_string d))) codes) codes = true)
    by (vm_compute; reflexivity).
  rewrite forallb_forall in G. specialize (G c (codes_in c Hc)). rewrite forallb_forall in G.
  specialize (G d (codes_in d Hd)). intros E. rewrite E, String.eqb_refl in G.
  destruct (Z.eqb_spec c d); auto. discriminate.
Qed.
