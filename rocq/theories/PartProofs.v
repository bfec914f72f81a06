(* PartProofs.v -- part table, part offsets, header validation *)
From Verif Require Import BaseLemmas HeaderModel HeaderSpec HeaderOps CodecProofs.

(* ---- find_index ------------------------------------------------------ *)
Lemma find_index_Some {A} (p : A -> bool) l i :
  find_index p l = Some i ->
  exists a x b, l = a ++ x :: b /\ length a = i /\ p x = true /\ Forall (fun y => p y = false) a.
Proof.
  revert i; induction l as [|y l IH]; intros i; cbn [find_index]; [discriminate|].
  destruct (p y) eqn:Hy.
  - intros [= <-]. exists [], y, l. repeat split; auto.
  - destruct (find_index p l) as [j|] eqn:Hj; [|discriminate]. intros [= <-].
    destruct (IH j eq_refl) as (a & x & b & -> & <- & Hx & Ha).
    exists (y :: a), x, b. repeat split; auto.
Qed.
Lemma find_index_None {A} (p : A -> bool) l :
  find_index p l = None <-> Forall (fun y => p y = false) l.
Proof.
  induction l as [|y l IH]; cbn [find_index]; [split; auto|].
  destruct (p y) eqn:Hy.
  - split; [discriminate|]. intros H; inversion H; congruence.
  - destruct (find_index p l) as [j|].
    + split; [discriminate|]. intros H; inversion H; subst. apply IH in H3. discriminate.
    + split; [|reflexivity]. intros _. constructor; auto. now apply IH.
Qed.
Lemma find_index_split {A} (p : A -> bool) a x b :
  Forall (fun y => p y = false) a -> p x = true -> find_index p (a ++ x :: b) = Some (length a).
Proof.
  intros Ha Hx. induction Ha as [|y a Hy Ha IH]; cbn [app find_index length].
  - now rewrite Hx.
  - now rewrite Hy, IH.
Qed.
Lemma find_index_app_none {A} (p : A -> bool) a b :
  Forall (fun y => p y = false) b -> find_index p (a ++ b) = find_index p a.
Proof.
  intros Hb. induction a as [|y a IH]; cbn [app find_index].
  - now apply find_index_None.
  - now rewrite IH.
Qed.
Lemma existsb_find_index {A} (p : A -> bool) l :
  existsb p l = match find_index p l with Some _ => true | None => false end.
Proof.
  induction l as [|y l IH]; cbn; [reflexivity|]. rewrite IH. destruct (p y); [reflexivity|].
  destruct (find_index p l); reflexivity.
Qed.

(* ---- tables ---------------------------------------------------------- *)
Definition table (live : list parth) : list parth :=
  live ++ repeat zero_part (32 - length live).
Definition live_ok (live : list parth) : Prop :=
  (length live <= 32)%nat /\ Forall (fun p => p_id p <> 0) live /\ NoDup (map p_id live).

Lemma parts_are_table live : live_ok live -> parts_are (table live) live.
Proof.
  intros (Hl & Hn & Hd). exists (repeat zero_part (32 - length live)). unfold table.
  repeat split; auto.
  - rewrite app_length, repeat_length. lia.
  - apply Forall_forall. intros p Hp. apply repeat_spec in Hp as ->. reflexivity.
Qed.

Lemma add_part_loop_spec id live empty :
  id <> 0 -> Forall (fun p => p_id p <> 0) live -> Forall (fun p => p_id p = 0) empty ->
  add_part_loop id (live ++ empty) =
    if existsb (fun p => p_id p =? id) live then (live ++ empty, Err E_EXISTS)
    else match empty with
         | [] => (live ++ empty, Err E_NO_SPACE_LEFT)
         | e :: r => (live ++ set_p_id e id :: r, Ok (length live))
         end.
Proof.
  intros Hid Hl He. induction Hl as [|p live Hp Hl IH]; cbn [app existsb add_part_loop length].
  - destruct He as [|e r He Hr]; cbn [add_part_loop]; [reflexivity|]. now rewrite He.
  - destruct (Z.eqb_spec (p_id p) 0); [contradiction|].
    destruct (Z.eqb_spec (p_id p) id); cbn [orb]; [reflexivity|].
    rewrite IH. destruct (existsb _ live); [reflexivity|]. destruct empty; reflexivity.
Qed.

Lemma del_part_loop_spec b empty :
  Forall (fun p => p_id p <> 0) b -> Forall (fun p => p_id p = 0) empty ->
  del_part_loop (b ++ empty) = b ++ zero_part :: empty.
Proof.
  intros Hb He. induction Hb as [|p b Hp Hb IH]; cbn [app del_part_loop].
  - destruct He as [|e r He Hr]; [reflexivity|]. cbn [del_part_loop]. now rewrite He.
  - destruct (Z.eqb_spec (p_id p) 0); [contradiction|]. now rewrite IH.
Qed.

Lemma with_parts_id h : with_parts h (h_parts h) = h.
Proof. destruct h; reflexivity. Qed.
Lemma with_parts_parts h a b : with_parts (with_parts h a) b = with_parts h b.
Proof. reflexivity. Qed.

(* C03: deletion in an arbitrary hole-free table (garbage allowed in the
   empty slots) *)
Lemma del_part_exact h a p b i :
  parts_are (h_parts h) (a ++ p :: b) -> length a = i ->
  exists h', del_part h i = Ok h' /\ parts_are (h_parts h') (a ++ b) /\
             h' = with_parts h (h_parts h').
Proof.
  intros (empty & Hs & Hlen & Hnz & Hnd & He) <-.
  unfold del_part. rewrite Hs.
  rewrite <- app_assoc. rewrite nth_error_app2, Nat.sub_diag by lia. cbn [app nth_error].
  eexists. split; [reflexivity|].
  assert (E : firstn (length a) (a ++ p :: b ++ empty) ++
              del_part_loop (skipn (S (length a)) (a ++ p :: b ++ empty)) =
              (a ++ b) ++ zero_part :: empty).
  { rewrite firstn_app, Nat.sub_diag, firstn_all, firstn_O, app_nil_r.
    replace (a ++ p :: b ++ empty) with ((a ++ [p]) ++ b ++ empty) by now rewrite <- app_assoc.
    rewrite skipn_app, skipn_all2 by (rewrite app_length; cbn [length]; lia).
    replace (S (length a) - length (a ++ [p]))%nat with 0%nat by (rewrite app_length; cbn [length]; lia).
    cbn [skipn app]. rewrite del_part_loop_spec; auto.
    - now rewrite app_assoc.
    - apply Forall_app in Hnz as [_ H]. now inversion H. }
  rewrite E. split; [|reflexivity]. cbn [h_parts with_parts].
  exists (zero_part :: empty). repeat split; auto.
  - rewrite <- Hlen, Hs. rewrite !app_length. cbn [length]. rewrite ?app_length. lia.
  - apply Forall_app in Hnz as [H1 H2]. inversion H2; subst. now apply Forall_app.
  - rewrite map_app in *. cbn in Hnd. now apply NoDup_remove_1 in Hnd.
Qed.

Lemma filter_out a p b id :
  Forall (fun y => (p_id y =? id) = false) a -> p_id p = id -> NoDup (map p_id (a ++ p :: b)) ->
  filter (fun q => negb (p_id q =? id)) (a ++ p :: b) = a ++ b.
Proof.
  intros Ha Hp Hnd. rewrite filter_app. cbn [filter].
  replace (p_id p =? id) with true by lia. cbn [negb]. f_equal.
  - induction Ha as [|y a Hy Ha IH]; [reflexivity|]. cbn [filter]. rewrite Hy. cbn [negb].
    f_equal. apply IH. cbn in Hnd. now inversion Hnd.
  - rewrite map_app in Hnd. cbn in Hnd. apply NoDup_remove_2 in Hnd.
    assert (Hb : ~ In id (map p_id b)) by (rewrite <- Hp; intros H; apply Hnd, in_app_iff; now right).
    clear - Hb. induction b as [|y b IH]; [reflexivity|]. cbn [filter].
    cbn in Hb. destruct (Z.eqb_spec (p_id y) id); [exfalso; apply Hb; now left|].
    cbn [negb]. f_equal. apply IH. intros H; apply Hb; now right.
Qed.
Lemma map_upd a p b id q :
  Forall (fun y => (p_id y =? id) = false) a -> p_id p = id -> NoDup (map p_id (a ++ p :: b)) ->
  map (fun x => if p_id x =? id then q else x) (a ++ p :: b) = a ++ q :: b.
Proof.
  intros Ha Hp Hnd. rewrite map_app. cbn [map].
  replace (p_id p =? id) with true by lia. f_equal.
  - clear Hnd. induction Ha as [|y a Hy Ha IH]; [reflexivity|]. cbn [map]. rewrite Hy. now f_equal.
  - f_equal. rewrite map_app in Hnd. cbn in Hnd. apply NoDup_remove_2 in Hnd.
    assert (Hb : ~ In id (map p_id b)) by (rewrite <- Hp; intros H; apply Hnd, in_app_iff; now right).
    clear - Hb. induction b as [|y b IH]; [reflexivity|]. cbn [map].
    cbn in Hb. destruct (Z.eqb_spec (p_id y) id); [exfalso; apply Hb; now left|].
    f_equal. apply IH. intros H; apply Hb; now right.
Qed.

Lemma get_part_table h live empty id :
  h_parts h = live ++ empty -> Forall (fun p => p_id p = 0) empty -> id <> 0 ->
  get_part h id = match find_index (fun p => p_id p =? id) live with
                  | Some i => Ok i | None => Err E_NOT_FOUND end.
Proof.
  intros Hs He Hid. unfold get_part. rewrite Hs, find_index_app_none; [reflexivity|].
  eapply Forall_impl; [|exact He]. cbn. intros p Hp. lia.
Qed.

Lemma table_empty_zero n : Forall (fun p => p_id p = 0) (repeat zero_part n).
Proof. apply Forall_forall. intros p Hp. apply repeat_spec in Hp as ->. reflexivity. Qed.

Lemma not_existsb_in (l : list parth) id :
  existsb (fun p => p_id p =? id) l = false -> ~ In id (map p_id l).
Proof.
  intros H Hin. apply in_map_iff in Hin as (p & <- & Hp).
  assert (existsb (fun q => p_id q =? p_id p) l = true).
  { apply existsb_exists. exists p. split; auto. lia. }
  congruence.
Qed.

Lemma run_part_spec h live o :
  h_parts h = table live -> live_ok live -> part_op_id o <> 0 ->
  let (live', x) := spec_part live o in
  run_part h o = (with_parts h (table live'), x) /\ live_ok live'.
Proof.
  intros Hs (Hl & Hn & Hd) Hid. destruct o as [id | id p | id]; cbn [part_op_id] in Hid; cbn [spec_part run_part].
  - unfold add_part. rewrite Hs. unfold table at 1.
    rewrite (add_part_loop_spec id live _ Hid Hn (table_empty_zero _)).
    destruct (existsb _ live) eqn:Hex.
    + split; [|repeat split; auto]. reflexivity.
    + destruct (Nat.leb_spec 32 (length live)) as [Hfull|Hroom].
      * replace (32 - length live)%nat with 0%nat by lia. cbn [repeat].
        split; [|repeat split; auto]. rewrite app_nil_r. unfold table.
        replace (32 - length live)%nat with 0%nat by lia. cbn [repeat]. now rewrite app_nil_r.
      * destruct (32 - length live)%nat as [|k] eqn:Hk; [lia|]. cbn [repeat].
        split.
        -- f_equal. f_equal. unfold table. rewrite <- app_assoc. cbn [app]. rewrite app_length. cbn [length].
           replace (32 - (length live + 1))%nat with k by lia. reflexivity.
        -- repeat split.
           ++ rewrite app_length. cbn. lia.
           ++ apply Forall_app. split; auto.
           ++ rewrite map_app. cbn. apply NoDup_Add with (a := id) (l := map p_id live).
              ** rewrite <- (app_nil_r (map p_id live)) at 1. apply Add_app.
              ** split; auto. now apply not_existsb_in.
  - rewrite (get_part_table h live _ id Hs (table_empty_zero _) Hid).
    rewrite existsb_find_index. destruct (find_index _ live) as [i|] eqn:Hf.
    + apply find_index_Some in Hf as (a & q & b & -> & <- & Hq & Ha).
      rewrite (map_upd a q b id); auto; [|lia]. split.
      * f_equal. f_equal. rewrite Hs. unfold table. rewrite <- !app_assoc. cbn [app].
        rewrite list_upd_middle. rewrite !app_length. cbn [length]. reflexivity.
      * repeat split.
        -- rewrite app_length in *. cbn in *. lia.
        -- apply Forall_app in Hn as [H1 H2]. apply Forall_app; split; auto.
           inversion H2; subst. constructor; auto.
        -- rewrite map_app in *. cbn in *. replace id with (p_id q) by lia. auto.
    + split; [|repeat split; auto]. rewrite <- Hs. now rewrite with_parts_id.
  - rewrite (get_part_table h live _ id Hs (table_empty_zero _) Hid).
    rewrite existsb_find_index. destruct (find_index _ live) as [i|] eqn:Hf.
    + apply find_index_Some in Hf as (a & q & b & -> & <- & Hq & Ha).
      rewrite (filter_out a q b id); auto; [|lia].
      unfold del_part. rewrite Hs. unfold table at 1 2 3.
      rewrite <- !app_assoc. cbn [app]. rewrite nth_error_app2, Nat.sub_diag by lia. cbn [nth_error].
      rewrite firstn_app, Nat.sub_diag, firstn_all, firstn_O, app_nil_r.
      replace (skipn (S (length a)) (a ++ q :: b ++ repeat zero_part (32 - length (a ++ q :: b))))
        with (b ++ repeat zero_part (32 - length (a ++ q :: b))).
      2:{ replace (a ++ q :: b ++ repeat zero_part (32 - length (a ++ q :: b)))
            with ((a ++ [q]) ++ b ++ repeat zero_part (32 - length (a ++ q :: b))) by now rewrite <- app_assoc.
          rewrite skipn_app, skipn_all2 by (rewrite app_length; cbn [length]; lia).
          replace (S (length a) - length (a ++ [q]))%nat with 0%nat by (rewrite app_length; cbn [length]; lia).
          reflexivity. }
      apply Forall_app in Hn as [Hn1 Hn2]. inversion Hn2; subst.
      rewrite del_part_loop_spec by (auto using table_empty_zero).
      rewrite app_length in *. cbn [length] in *.
      split.
      * f_equal. f_equal. unfold table. rewrite <- app_assoc. do 2 f_equal.
        rewrite app_length. replace (32 - (length a + length b))%nat with (S (32 - (length a + S (length b))))%nat by lia.
        reflexivity.
      * repeat split.
        -- rewrite app_length. lia.
        -- apply Forall_app; auto.
        -- rewrite map_app in *. cbn in Hd. now apply NoDup_remove_1 in Hd.
    + split; [|repeat split; auto]. rewrite <- Hs. now rewrite with_parts_id.
Qed.

Lemma run_parts_spec os : forall h live,
  h_parts h = table live -> live_ok live -> Forall (fun o => part_op_id o <> 0) os ->
  let (live', xs) := spec_parts live os in
  run_parts h os = (with_parts h (table live'), xs) /\ live_ok live'.
Proof.
  induction os as [|o os IH]; intros h live Hs Hl Hok; cbn [spec_parts run_parts].
  - split; auto. rewrite <- Hs. now rewrite with_parts_id.
  - inversion Hok as [|? ? Ho Hos]; subst.
    pose proof (run_part_spec h live o Hs Hl Ho) as H.
    destruct (spec_part live o) as [l1 x]. destruct H as [-> Hl1].
    specialize (IH (with_parts h (table l1)) l1 eq_refl Hl1 Hos).
    destruct (spec_parts l1 os) as [l2 xs]. destruct IH as [-> Hl2]. auto.
Qed.

Lemma part_history os :
  Forall (fun o => part_op_id o <> 0) os ->
  let (h, xs) := run_parts init_header os in
  let (live, ys) := spec_parts [] os in
  xs = ys /\ parts_are (h_parts h) live /\ h = with_parts init_header (h_parts h) /\
  (forall id i, id <> 0 ->
     (get_part h id = Ok i <->
      exists p, nth_error live i = Some p /\ p_id p = id /\ nth_error (h_parts h) i = Some p)) /\
  (forall id, id <> 0 ->
     (get_part h id = Err E_NOT_FOUND <-> forall p, In p live -> p_id p <> id)).
Proof.
  intros Hok.
  assert (Hl0 : live_ok []) by (repeat split; cbn; auto; [lia | constructor]).
  pose proof (run_parts_spec os init_header [] eq_refl Hl0 Hok) as H.
  destruct (spec_parts [] os) as [live ys]. destruct H as [-> Hl].
  cbn [h_parts with_parts].
  repeat split; auto.
  - now apply parts_are_table.
  - intros Hg. rewrite (get_part_table _ live (repeat zero_part (32 - length live)) id) in Hg; auto using table_empty_zero.
    destruct (find_index _ live) as [j|] eqn:Hf; [|discriminate]. injection Hg as ->.
    apply find_index_Some in Hf as (a & q & b & -> & <- & Hq & Ha).
    exists q. unfold table. rewrite <- app_assoc. cbn [app].
    rewrite !nth_error_app2, !Nat.sub_diag by lia. cbn. repeat split; lia.
  - intros (p & Hp & Hid & _).
    rewrite (get_part_table _ live (repeat zero_part (32 - length live)) id); auto using table_empty_zero.
    apply nth_error_split in Hp as (a & b & -> & <-).
    destruct Hl as (_ & _ & Hnd).
    rewrite find_index_split; auto; [|lia].
    rewrite map_app in Hnd. cbn in Hnd. apply NoDup_remove_2 in Hnd.
    apply Forall_forall. intros y Hy. apply Z.eqb_neq. intros E. apply Hnd.
    apply in_app_iff. left. rewrite Hid, <- E. now apply in_map.
  - intros Hg p Hp E.
    rewrite (get_part_table _ live (repeat zero_part (32 - length live)) id) in Hg; auto using table_empty_zero.
    destruct (find_index _ live) as [j|] eqn:Hf; [discriminate|].
    apply find_index_None in Hf. rewrite Forall_forall in Hf. specialize (Hf p Hp). cbn in Hf. lia.
  - intros Hall.
    rewrite (get_part_table _ live (repeat zero_part (32 - length live)) id); auto using table_empty_zero.
    replace (find_index (fun p => p_id p =? id) live) with (@None nat); [reflexivity|].
    symmetry. apply find_index_None. apply Forall_forall. intros p Hp. specialize (Hall p Hp). lia.
Qed.

(* ---- valid_header ---------------------------------------------------- *)
Lemma valid_parts_spec l :
  valid_parts l = true <->
  Forall (fun p => ((p_size p + p_pad_bytes p) mod 2^64) mod 512 = 0) (until_empty p_id l).
Proof.
  induction l as [|p l IH]; cbn [valid_parts until_empty]; [split; auto|].
  destruct (p_id p =? 0); [split; auto|].
  change (u64 (p_size p + p_pad_bytes p)) with ((p_size p + p_pad_bytes p) mod 2^64).
  unfold PART_ALIGN.
  destruct (Z.eqb_spec (((p_size p + p_pad_bytes p) mod 2^64) mod 512) 0) as [E|E]; cbn [negb].
  - rewrite IH. split; [constructor; auto|]. intros H; now inversion H.
  - split; [discriminate|]. intros H; inversion H; contradiction.
Qed.
Lemma valid_metas_spec l :
  valid_metas l = true <->
  Forall (fun m => m_offset m + m_size m <= 1920) (until_empty m_id l).
Proof.
  induction l as [|m l IH]; cbn [valid_metas until_empty]; [split; auto|].
  destruct (m_id m =? 0); [split; auto|]. unfold METADATA_BYTES.
  destruct (Z.gtb_spec (m_size m + m_offset m) 1920).
  - split; [discriminate|]. intros H'; inversion H'. lia.
  - rewrite IH. split; [intros; constructor; auto; lia|]. intros H'; now inversion H'.
Qed.

Lemma valid_header_iff h :
  valid_header h = Ok tt <->
  h_magic h = 1112555826 /\ parts_aligned h /\ metas_in_bounds h /\ h_hash_kind h <> 0.
Proof.
  unfold valid_header, parts_aligned, metas_in_bounds.
  rewrite <- valid_parts_spec, <- valid_metas_spec. change HEADER_MAGIC with 1112555826.
  destruct (Z.eqb_spec (h_magic h) 1112555826); cbn [negb]; [|split; [discriminate|tauto]].
  destruct (valid_parts (h_parts h)); cbn [negb]; [|split; [discriminate|intros (_&H&_); discriminate]].
  destruct (valid_metas (h_meta h)); cbn [negb]; [|split; [discriminate|intros (_&_&H&_); discriminate]].
  destruct (Z.eqb_spec (h_hash_kind h) 0); [split; [discriminate|tauto]|tauto].
Qed.
Lemma valid_header_error h e :
  valid_header h = Err e <->
  (e = E_BAD_MAGIC /\ h_magic h <> 1112555826) \/
  (e = E_BAD_ALIGNMENT /\ h_magic h = 1112555826 /\ ~ parts_aligned h) \/
  (e = E_SIZE_ERROR /\ h_magic h = 1112555826 /\ parts_aligned h /\ ~ metas_in_bounds h) \/
  (e = E_NOT_SUPPORTED /\ h_magic h = 1112555826 /\ parts_aligned h /\ metas_in_bounds h /\ h_hash_kind h = 0).
Proof.
  unfold valid_header, parts_aligned, metas_in_bounds.
  rewrite <- valid_parts_spec, <- valid_metas_spec. change HEADER_MAGIC with 1112555826.
  destruct (Z.eqb_spec (h_magic h) 1112555826); cbn [negb]; [|intuition congruence].
  destruct (valid_parts (h_parts h)); cbn [negb]; [|intuition congruence].
  destruct (valid_metas (h_meta h)); cbn [negb]; [|intuition congruence].
  destruct (Z.eqb_spec (h_hash_kind h) 0); [|intuition congruence].
  intuition congruence.
Qed.
Lemma valid_header_total h : valid_header h = Ok tt \/ exists e, valid_header h = Err e.
Proof.
  unfold valid_header. repeat match goal with |- context [if ?c then _ else _] => destruct c end; eauto.
Qed.

(* ---- part offsets ---------------------------------------------------- *)
Lemma has_flag_transport p : has_flag p FLAG_TRANSPORT = Z.testbit (p_flags p) 1.
Proof.
  unfold has_flag, FLAG_TRANSPORT. change 2 with (2 ^ 1).
  destruct (Z.testbit (p_flags p) 1) eqn:E.
  - destruct (Z.eqb_spec (Z.land (p_flags p) (2^1)) 0) as [H|H]; [|reflexivity].
    assert (Z.testbit (Z.land (p_flags p) (2^1)) 1 = true) by (rewrite Z.land_spec, E; reflexivity).
    rewrite H in *. discriminate.
  - replace (Z.land (p_flags p) (2 ^ 1)) with 0; [reflexivity|].
    symmetry. apply Z.bits_inj'. intros k Hk. rewrite Z.land_spec, Z.bits_0.
    rewrite Z.pow2_bits_eqb by lia. destruct (Z.eqb_spec 1 k); [subst; now rewrite E|now rewrite andb_false_r].
Qed.
Lemma has_flag_exclude p : has_flag p FLAG_EXCLUDE_FROM_HASH = Z.testbit (p_flags p) 0.
Proof.
  unfold has_flag, FLAG_EXCLUDE_FROM_HASH. change 1 with (2 ^ 0) at 1.
  destruct (Z.testbit (p_flags p) 0) eqn:E.
  - destruct (Z.eqb_spec (Z.land (p_flags p) (2^0)) 0) as [H|H]; [|reflexivity].
    assert (Z.testbit (Z.land (p_flags p) (2^0)) 0 = true) by (rewrite Z.land_spec, E; reflexivity).
    rewrite H in *. discriminate.
  - replace (Z.land (p_flags p) (2 ^ 0)) with 0; [reflexivity|].
    symmetry. apply Z.bits_inj'. intros k Hk. rewrite Z.land_spec, Z.bits_0.
    rewrite Z.pow2_bits_eqb by lia. destruct (Z.eqb_spec 0 k); [subst; now rewrite E|now rewrite andb_false_r].
Qed.
Lemma part_size_stored p : wf_part p -> stored_size p < 2^64 -> part_size p = stored_size p.
Proof.
  intros W H. unfold part_size, stored_size in *. rewrite has_flag_transport.
  destruct (Z.testbit (p_flags p) 1); [reflexivity|].
  destruct W as (_&?&_&_&?&_). unfold u64. apply Z.mod_small. lia.
Qed.
Lemma stored_size_nonneg p : wf_part p -> 0 <= stored_size p.
Proof.
  intros (_&?&_&?&?&_). unfold stored_size. destruct (Z.testbit _ 1); lia.
Qed.
Lemma sum_sizes_nonneg l : Forall wf_part l -> 0 <= sum_sizes l.
Proof.
  induction 1 as [|p l W _ IH]; cbn [sum_sizes fold_right]; [lia|].
  pose proof (stored_size_nonneg p W). unfold sum_sizes in IH. lia.
Qed.
Lemma sum_sizes_app a b : sum_sizes (a ++ b) = sum_sizes a + sum_sizes b.
Proof. induction a as [|p a IH]; cbn [app sum_sizes fold_right]; [reflexivity|]. unfold sum_sizes in *. lia. Qed.
Lemma sum_sizes_cons p l : sum_sizes (p :: l) = stored_size p + sum_sizes l.
Proof. reflexivity. Qed.

Lemma part_offset_loop_spec a acc p b :
  Forall wf_part a -> Forall (fun q => p_id q <> 0) a ->
  Forall (fun q => p_id q <> p_id p) a ->
  0 <= acc -> acc + sum_sizes a < 2^63 ->
  part_offset_loop (p_id p) acc (a ++ p :: b) = acc + sum_sizes a.
Proof.
  intros W. revert acc. induction W as [|q a Wq W IH]; intros acc Hn Hne Hacc Hsum; cbn [app part_offset_loop].
  - destruct (p_id p =? 0); [cbn; lia|]. rewrite Z.eqb_refl. cbn. lia.
  - inversion Hn; subst. inversion Hne; subst.
    destruct (Z.eqb_spec (p_id q) 0); [contradiction|].
    destruct (Z.eqb_spec (p_id q) (p_id p)); [contradiction|].
    rewrite sum_sizes_cons in *. pose proof (stored_size_nonneg q Wq). pose proof (sum_sizes_nonneg a W).
    rewrite part_size_stored by (auto; lia).
    replace (s64 (acc + stored_size q)) with (acc + stored_size q).
    + rewrite IH; auto; lia.
    + unfold s64. rewrite Z.mod_small by lia. lia.
Qed.

Lemma part_offset_prefix h a p b :
  parts_are (h_parts h) (a ++ p :: b) -> Forall wf_part (h_parts h) ->
  4096 + sum_sizes a < 2^63 ->
  part_offset h p = 4096 + sum_sizes a.
Proof.
  intros (empty & Hs & Hlen & Hnz & Hnd & He) W Hsum. unfold part_offset. rewrite Hs in *.
  rewrite <- app_assoc in *. cbn [app] in *.
  apply Forall_app in W as [Wa _]. apply Forall_app in Hnz as [Hna _].
  apply part_offset_loop_spec; auto; try (unfold HDR_SIZE; lia).
  rewrite map_app in Hnd. cbn in Hnd. apply NoDup_remove_2 in Hnd.
  apply Forall_forall. intros y Hy E. apply Hnd. apply in_app_iff. left. rewrite <- E. now apply in_map.
Qed.

(* two different parts never share a byte *)
Lemma parts_disjoint h live i j p q :
  parts_are (h_parts h) live -> Forall wf_part (h_parts h) ->
  4096 + sum_sizes live < 2^63 ->
  nth_error live i = Some p -> nth_error live j = Some q -> (i < j)%nat ->
  4096 <= part_offset h p /\ part_offset h p + part_size p <= part_offset h q /\
  part_offset h q + part_size q <= 4096 + sum_sizes live.
Proof.
  intros Hp W Hsum Hi Hj Hij.
  apply nth_error_split in Hi as (a & b & -> & <-).
  rewrite nth_error_app2 in Hj by lia.
  destruct (j - length a)%nat as [|k] eqn:Hk; [lia|]. cbn [nth_error] in Hj.
  apply nth_error_split in Hj as (c & d & -> & Hlc).
  assert (Wl : Forall wf_part (a ++ p :: c ++ q :: d)).
  { destruct Hp as (e & Hs & _). rewrite Hs in W. now apply Forall_app in W. }
  pose proof Wl as Wl'. apply Forall_app in Wl' as [Wa Wr]. inversion Wr as [|? ? Wp Wr']; subst.
  apply Forall_app in Wr' as [Wc Wr'']. inversion Wr'' as [|? ? Wq Wd]; subst.
  repeat rewrite ?sum_sizes_app, ?sum_sizes_cons in Hsum.
  pose proof (sum_sizes_nonneg _ Wa). pose proof (sum_sizes_nonneg _ Wc). pose proof (sum_sizes_nonneg _ Wd).
  pose proof (stored_size_nonneg _ Wp). pose proof (stored_size_nonneg _ Wq).
  rewrite (part_offset_prefix h a p (c ++ q :: d)) by (auto; lia).
  rewrite (part_offset_prefix h (a ++ p :: c) q d); auto.
  - rewrite !part_size_stored by (auto; lia). repeat rewrite ?sum_sizes_app, ?sum_sizes_cons. lia.
  - rewrite <- app_assoc. exact Hp.
  - rewrite sum_sizes_app, sum_sizes_cons. lia.
Qed.
