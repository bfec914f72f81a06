(* TransportDecode.v -- what the decoder writes *)
From Verif Require Import Base BaseLemmas HeaderModel HeaderSpec CodecProofs PartProofs CrcModel CrcProofs HashModel MerkleModel MerkleSpec VerifyModel VerifySpec
  PkgSpec PkgProofs BspatchModel BspatchProofs BsdiffModel HsModel HsPatchModel LzModel
  TransportModel TransportSpec TransportFile TransportLay TransportEncode.

Lemma same_meta h h' : same_besides_table h h' -> h_meta h' = h_meta h /\ h_metadata h' = h_metadata h.
Proof. intros ->. split; reflexivity. Qed.
Lemma same_get_meta h h' id ref : same_besides_table h h' -> get_meta h' id ref = get_meta h id ref.
Proof. intros ->. reflexivity. Qed.
Lemma same_meta_read h h' i k n : same_besides_table h h' -> meta_read h' i k n = meta_read h i k n.
Proof. intros ->. reflexivity. Qed.
Lemma clear_transport x : 0 <= x < 2^8 -> Z.testbit x 1 = false -> Z.land (Z.setbit x 1) (u8 (Z.lnot FLAG_TRANSPORT)) = x /\
  Z.land x (u8 (Z.lnot FLAG_TRANSPORT)) = x.
Proof.
  intros H. assert (F : forallb (fun n => Z.testbit (Z.of_nat n) 1 ||
     ((Z.land (Z.setbit (Z.of_nat n) 1) (u8 (Z.lnot FLAG_TRANSPORT)) =? Z.of_nat n) && (Z.land (Z.of_nat n) (u8 (Z.lnot FLAG_TRANSPORT)) =? Z.of_nat n)))
     (seq 0 256) = true) by (vm_compute; reflexivity).
  rewrite forallb_forall in F. specialize (F (Z.to_nat x)). rewrite Z2Nat.id in F by lia. intros E. rewrite E in F.
  destruct (andb_prop _ _ (F ltac:(apply in_seq; lia))) as [A B]. apply Z.eqb_eq in A, B. auto.
Qed.
Lemma restored p c n : wf_part p -> Z.testbit (p_flags p) 1 = false -> p_transport_size p = 0 -> travels p c n ->
  set_p_transport_size (set_p_flags c (Z.land (p_flags c) (u8 (Z.lnot FLAG_TRANSPORT)))) 0 = p.
Proof.
  intros W F T ->. destruct W as (_ & _ & _ & _ & _ & Wf & _). destruct (clear_transport _ Wf F) as [A _].
  destruct p as [i s o t pb fl pd]. cbn [p_id p_size p_offset p_transport_size p_pad_bytes p_flags p_pad set_p_flags set_p_transport_size] in *.
  now rewrite A, T.
Qed.
Lemma restored_as_is p : wf_part p -> Z.testbit (p_flags p) 1 = false -> p_transport_size p = 0 ->
  set_p_transport_size (set_p_flags p (Z.land (p_flags p) (u8 (Z.lnot FLAG_TRANSPORT)))) 0 = p.
Proof.
  intros W F T. destruct W as (_ & _ & _ & _ & _ & Wf & _). destruct (clear_transport _ Wf F) as [_ A].
  destruct p as [i s o t pb fl pd]. cbn [p_id p_size p_offset p_transport_size p_pad_bytes p_flags p_pad set_p_flags set_p_transport_size] in *.
  now rewrite A, T.
Qed.
(* a part of a plain package: wf, size of the contents, no transport state *)
Definition clean (e : parth * bytes) : Prop :=
  wf_part (fst e) /\ Z.testbit (p_flags (fst e)) 1 = false /\ p_transport_size (fst e) = 0 /\ zlen (snd e) = p_size (fst e) + p_pad_bytes (fst e).

Section Step.
  Variables (bld : build) (sha : hashfn) (origin : option pkg) (ph h : header) (g : bytes) (inp : bytes) (es1 cs2 : entries) (e c : parth * bytes) (pos : Z) (s : setting).
  Hypothesis Hsha : good_hash sha.
  Hypothesis Hph : wf_header ph.
  Hypothesis Hsame : same_besides_table ph h.
  Hypothesis Hlay : lay h (es1 ++ c :: cs2).
  Hypothesis Hclean : clean e.
  Hypothesis Hset : s <> AsIs -> has_setting ph (p_id (fst e)) s.
  Hypothesis Hcoded : coded bld origin s e c.
  Hypothesis Horigin : origin_has origin (p_id (fst e)).
  Hypothesis Hpos : 0 <= pos.
  Hypothesis Hin : slice pos (zlen (snd c)) inp = snd c.
  Hypothesis Hinb : pos + zlen (snd c) <= zlen inp.
  Hypothesis Hbound : 4096 + zlen (concat (map snd es1)) + zlen (snd e) < 2^62.
  Hypothesis Htree : s = Tree -> exists a fs data b salt ls, es1 = a ++ (fs, data) :: b /\
    hash_tree_id_to_part_id h (p_id (fst e)) = p_id fs /\ meta_starts ph 0x7c9b2f93 (p_id fs) salt /\ zlen salt = 32 /\
    0 < zlen data <= 2^33 /\ zlen data mod 4096 = 0 /\ hash_levels sha salt data ls /\ snd e = hash_tree ls.
  Let D := concat (map snd es1).

  Lemma c_id : p_id (fst c) = p_id (fst e).
  Proof.
    destruct s; cbn [coded] in Hcoded.
    - now rewrite Hcoded.
    - destruct Hcoded as [T _]. eapply travels_id; eauto.
    - destruct Hcoded as [T _]. eapply travels_id; eauto.
    - destruct Hcoded as [T _]. eapply travels_id; eauto.
    - destruct Hcoded as [T _]. eapply travels_id; eauto.
  Qed.
  Lemma c_full : p_size (fst c) + p_pad_bytes (fst c) = zlen (snd e).
  Proof.
    destruct Hclean as (_ & _ & _ & Z). destruct s; cbn [coded] in Hcoded.
    - now rewrite Hcoded.
    - destruct Hcoded as [T _]. rewrite T. cbn [p_size p_pad_bytes]. lia.
    - destruct Hcoded as [T _]. rewrite T. cbn [p_size p_pad_bytes]. lia.
    - destruct Hcoded as [T _]. rewrite T. cbn [p_size p_pad_bytes]. lia.
    - destruct Hcoded as [T _]. rewrite T. cbn [p_size p_pad_bytes]. lia.
  Qed.
  Lemma c_restored : set_p_transport_size (set_p_flags (fst c) (Z.land (p_flags (fst c)) (u8 (Z.lnot FLAG_TRANSPORT)))) 0 = fst e.
  Proof.
    destruct Hclean as (W & F & T0 & Z). destruct s; cbn [coded] in Hcoded.
    - rewrite Hcoded. now apply restored_as_is.
    - destruct Hcoded as [T _]. eapply restored; eauto.
    - destruct Hcoded as [T _]. eapply restored; eauto.
    - destruct Hcoded as [T _]. eapply restored; eauto.
    - destruct Hcoded as [T _]. eapply restored; eauto.
  Qed.
  Lemma c_pos : data_pos h (fst c) = 4096 + zlen D.
  Proof. pose proof (zlen_nonneg (snd e)). destruct c as [q d]. eapply lay_data_pos; eauto. fold D. unfold D. lia. Qed.
  Lemma c_size : part_size (fst c) = zlen (snd c).
  Proof. eapply lay_bound; eauto. Qed.
  Lemma h_len : zlen (enc_header h) = 4096.
  Proof. eapply zlen_enc_same; eauto. Qed.

  (* the file after this part's contents have been added *)
  Let F0 := fwrite_at g 0 (enc_header h ++ D).
  Let F1 := fwrite_at g 0 (enc_header h ++ D ++ snd e).
  Lemma F0_more : fwrite_at F0 (4096 + zlen D) (snd e) = F1.
  Proof. unfold F0, F1. rewrite app_assoc, <- (fwrite_more g (enc_header h ++ D)), zlen_app, h_len. reflexivity. Qed.

  Lemma dec_id dec enc : 0 <= enc < 2^32 -> 0 <= dec < 2^32 -> Z.testbit (p_flags (fst c)) 1 = true ->
    meta_starts ph ID_BPAK_TRANSPORT (p_id (fst e)) (le 4 enc ++ le 4 dec) -> decoder_id h (fst c) = Ok dec.
  Proof.
    intros He Hd Fl Ms. unfold decoder_id. rewrite has_flag_transport, Fl.
    destruct (setting_get _ _ _ _ Hph He Hd Ms) as (m & b1 & b2 & Gm & _ & _ & M2 & U2).
    rewrite c_id, (same_get_meta _ _ _ _ Hsame), Gm, (same_meta_read _ _ _ _ _ Hsame), M2. cbn [bind]. now rewrite U2.
  Qed.
  Lemma travels_flag p q n : travels p q n -> Z.testbit (p_flags q) 1 = true.
  Proof. intros ->. cbn [p_flags]. now rewrite Z.setbit_eq by lia. Qed.
  Lemma feed_fuel : (part_size (fst c) + 4095) / 4096 <= Z.of_nat (Z.to_nat (part_size (fst c) / CHUNK + 1)).
  Proof. rewrite c_size. pose proof (zlen_nonneg (snd c)). unfold CHUNK. lia. Qed.

  (* starting, feeding and the value of the decoder's finish *)
  Lemma part_decoded : exists d0 d1, decode_start bld h (fst c) origin = Ok d0 /\
    exists F, decode_chunks bld (Z.to_nat (part_size (fst c) / CHUNK + 1)) h (fst c)
          (match origin with Some q => pk_file q | None => [] end) inp pos (part_size (fst c)) d0 F0 = (d1, F, pos + zlen (snd c), Ok tt) /\
    decode_finish bld sha h (length es1) (fst c) (match origin with Some q => pk_file q | None => [] end) d1 F =
      (set_part h (length es1) (fst e), fwrite_at F1 0 (enc_header (set_part h (length es1) (fst e))), Ok tt).
  Proof.
    pose proof c_id as C_id. pose proof c_full as C_full. pose proof c_restored as C_restored. pose proof c_pos as C_pos.
    pose proof c_size as C_size. pose proof h_len as H_len. pose proof F0_more as F0_More. pose proof dec_id as Dec_id. pose proof feed_fuel as Ff.
    pose proof (zlen_nonneg D) as ND. pose proof (zlen_nonneg (snd e)) as Ne. pose proof (zlen_nonneg (snd c)) as Nc.
    assert (Fin : forall qf d F, match d with
           | DPlain _ _ c => (F, bspatch_final c)
           | DHs _ _ _ c => (F, bspatch_final (hp_bs c))
           | DLz ooff woff c =>
               if woff <? 0 then (F, Err E_SEEK_ERROR)
               else match lzp_final _ qf ooff woff PATCH_BUF c F with (_, f1, r) => (f1, r) end
           | DMerkle =>
               match merkle_generate sha h (fst c) F with
               | Ok (f1, n) => (f1, Ok n)
               | Err e => (F, Err e)
               | UB => (F, UB)
               | Stuck => (F, Stuck)
               end
           | DCopy _ => (F, Ok (s64 (part_size (fst c))))
           end = (F1, Ok (zlen (snd e))) ->
       decode_finish bld sha h (length es1) (fst c) qf d F =
      (set_part h (length es1) (fst e), fwrite_at F1 0 (enc_header (set_part h (length es1) (fst e))), Ok tt)).
    { intros qf d F E. unfold decode_finish. rewrite E. destruct (Z.ltb_spec (zlen (snd e)) 0); [lia|].
      rewrite C_full, s64_id by (unfold D in *; lia). rewrite Z.eqb_refl. cbn [negb]. rewrite C_restored. reflexivity. }
    rewrite C_size in Ff. rewrite C_size.
    destruct s eqn:Es; try (specialize (Hset ltac:(discriminate))); cbn [has_setting coded] in Hset, Hcoded.
    - (* copied *)
      exists (DCopy 0), (DCopy (0 + zlen (snd c))). split.
      { unfold decode_start, decoder_id. rewrite has_flag_transport. destruct Hclean as (_ & Fl & _). rewrite Hcoded, Fl. reflexivity. }
      exists F1. split.
      + assert (Ec : snd c = snd e) by now rewrite Hcoded. assert (Lc : zlen (snd c) = zlen (snd e)) by now rewrite Ec.
        rewrite feed_copy; auto; try lia; rewrite ?C_pos; try (unfold D in *; lia).
        rewrite Hin, Ec, (Z.add_0_r (4096 + zlen D)), F0_More. reflexivity.
      + apply Fin. rewrite C_size, Hcoded, s64_id by (unfold D in *; lia). reflexivity.
    - (* patch *)
      destruct Hcoded as (T & q & Eq & Mk). rewrite Eq.
      destruct (feed_list bld inp (Z.to_nat (zlen (snd c) / CHUNK + 1)) pos (zlen (snd c)) Hpos Nc Hinb Ff) as (l & Cl & Nl & Fp & _).
      rewrite Hin in Cl. destruct (Mk (4096 + zlen D) F0 l ltac:(lia) Cl Nl) as (c1 & Rn & Fn).
      exists (DPlain (data_pos (pk_header q) (fst c)) (data_pos h (fst c)) bs_init), (DPlain (data_pos (pk_header q) (fst c)) (data_pos h (fst c)) c1).
      split.
      { unfold decode_start. rewrite (Dec_id 0x75622592 0x0a878e3e) by (auto; try lia; eapply travels_flag; eauto). reflexivity. }
      rewrite (data_pos_id _ _ _ C_id), C_pos. exists F1. split.
      + apply Fp; [lia|]. rewrite Rn, F0_More. reflexivity.
      + apply Fin. now rewrite Fn.
    - (* compressed patch *)
      destruct Hcoded as (T & q & Eq & Mk). rewrite Eq.
      destruct (feed_list bld inp (Z.to_nat (zlen (snd c) / CHUNK + 1)) pos (zlen (snd c)) Hpos Nc Hinb Ff) as (l & Cl & Nl & _ & Fp & _).
      rewrite Hin in Cl. destruct (Mk (4096 + zlen D) F0 l ltac:(lia) Cl Nl) as (c1 & Rn & Fn).
      exists (DHs (data_pos (pk_header q) (fst c)) (data_pos h (fst c)) (zlen (snd c)) hsp_init),
             (DHs (data_pos (pk_header q) (fst c)) (data_pos h (fst c)) (zlen (snd c)) c1).
      split.
      { unfold decode_start. rewrite (Dec_id 0xb5964388 0x9f7aacf9) by (auto; try lia; eapply travels_flag; eauto). rewrite C_size. reflexivity. }
      rewrite (data_pos_id _ _ _ C_id), C_pos. exists F1. split.
      + apply Fp; [lia|]. rewrite Rn, F0_More. reflexivity.
      + apply Fin. now rewrite Fn.
    - (* patch compressed with LZMA *)
      destruct Hcoded as (T & q & Eq & Bl & Mk). rewrite Eq.
      destruct (feed_list bld inp (Z.to_nat (zlen (snd c) / CHUNK + 1)) pos (zlen (snd c)) Hpos Nc Hinb Ff) as (l & Cl & Nl & _ & _ & Fp).
      rewrite Hin in Cl. destruct (Mk (4096 + zlen D) F0 l ltac:(lia) Cl Nl) as (h1 & f1 & h2 & Rn & Fn).
      exists (DLz (data_pos (pk_header q) (fst c)) (data_pos h (fst c)) (lzp_init _)), (DLz (data_pos (pk_header q) (fst c)) (data_pos h (fst c)) h1).
      split.
      { unfold decode_start. rewrite (Dec_id 0x933a9893 0x1607e56e) by (auto; try lia; eapply travels_flag; eauto). rewrite Bl. reflexivity. }
      rewrite (data_pos_id _ _ _ C_id), C_pos. exists f1. split.
      + apply Fp; [lia|]. exact Rn.
      + apply Fin. destruct (Z.ltb_spec (4096 + zlen D) 0); [lia|]. rewrite Fn, F0_More. reflexivity.
    - (* tree *)
      destruct Hcoded as (T & E0). exists DMerkle, DMerkle. split.
      { unfold decode_start. rewrite (Dec_id 0xb5bcc58f 0x57004cd0) by (auto; try lia; eapply travels_flag; eauto). reflexivity. }
      exists F0. rewrite E0. change (zlen (@nil Z)) with 0. rewrite Z.add_0_r. split; [reflexivity|]. apply Fin.
      destruct (Htree eq_refl) as (a & fs & data & b & salt & ls & Ea & Hid & Ms & Ls & Bd & Md & Hl & Et).
      unfold merkle_generate. rewrite C_id.
      rewrite Hid.
      pose proof Hlay as La. rewrite Ea, <- app_assoc in La. cbn [app] in La.
      destruct (Z.eqb_spec (p_id fs) 0) as [Z0|_].
      { exfalso. pose proof (la_nonzero _ _ La) as N. apply Forall_app in N as [_ N]. inversion N; subst. contradiction. }
      destruct (meta_get _ _ _ _ Hph Ms) as (m & Gm & Rm). rewrite (same_get_meta _ _ _ _ Hsame).
      change ID_MERKLE_SALT with 0x7c9b2f93. rewrite Gm. cbn [bind].
      destruct (lay_get _ _ _ _ _ La) as [Gp Np]. rewrite Gp. cbn [bind].
      rewrite (same_meta_read _ _ _ _ _ Hsame), Rm, slice_full by lia. cbn [bind]. rewrite Np.
      pose proof (lay_bound _ _ _ _ La) as Sd. cbn [fst snd] in Sd. rewrite Sd, C_pos.
      assert (LD : zlen D = zlen (concat (map snd a)) + zlen data + zlen (concat (map snd b))).
      { unfold D. rewrite Ea, zlen_split. reflexivity. }
      pose proof (zlen_nonneg (concat (map snd a))). pose proof (zlen_nonneg (concat (map snd b))).
      rewrite (lay_data_pos _ _ _ _ _ fs La) by (auto; unfold D in *; lia).
      replace (4096 + zlen D) with (zlen (enc_header h ++ D)) by (rewrite zlen_app, H_len; reflexivity).
      destruct (generate_tree sha g (enc_header h ++ D) (4096 + zlen (concat (map snd a))) data salt ls) as (cx & f1 & I1 & c' & f' & G1 & S1 & root & Fi);
        auto; try lia.
      + rewrite zlen_app, H_len. lia.
      + unfold D. rewrite Ea. pose proof (slice_part (enc_header h) a (fs, data) b [] H_len) as P. cbn [snd] in P. now rewrite app_nil_r in P.
      + rewrite zlen_app, H_len. unfold D in *. lia.
      + fold F0 in I1. rewrite I1. cbn [bind]. rewrite G1. cbn [bind fst snd]. rewrite Fi. cbn [bind fst snd]. rewrite S1, <- Et.
        unfold F1. now rewrite <- app_assoc.
  Qed.
End Step.

(* ---- all parts ---- *)
Lemma tree_loop_ids id : forall l l', map p_id l = map p_id l' -> hash_tree_id_to_part_id_loop id l = hash_tree_id_to_part_id_loop id l'.
Proof.
  induction l as [|x l IH]; intros [|y l'] E; try discriminate; [reflexivity|]. cbn [map] in E. injection E as E1 E2.
  cbn [hash_tree_id_to_part_id_loop]. rewrite E1. destruct (_ =? id); auto.
Qed.
Lemma lay_ids h h' (es es' : entries) : lay h es -> lay h' es' -> map (fun e : parth * bytes => p_id (fst e)) es = map (fun e : parth * bytes => p_id (fst e)) es' ->
  map p_id (h_parts h) = map p_id (h_parts h').
Proof.
  intros L L' E. rewrite (la_table _ _ L), (la_table _ _ L'), !map_app, !map_map. f_equal; [exact E|].
  assert (length es = length es') as -> ; [|reflexivity].
  rewrite <- (map_length (fun e : parth * bytes => p_id (fst e)) es), E. apply map_length.
Qed.
Lemma split_unique {A} (k : A -> Z) : forall (a a' : list A) x b b', NoDup (map k (a ++ x :: b)) -> a ++ x :: b = a' ++ x :: b' -> a = a'.
Proof.
  induction a as [|y a IH]; intros [|y' a'] x b b' N E; cbn [app map] in *.
  - reflexivity.
  - injection E as -> E. exfalso. inversion N as [|? ? Hn _]; subst. elim Hn. apply in_map. apply in_or_app. right. left. reflexivity.
  - injection E as -> E. exfalso. inversion N as [|? ? Hn _]; subst. elim Hn. apply in_map. apply in_or_app. right. left. reflexivity.
  - injection E as <- E. f_equal. inversion N; subst. eapply IH; eauto.
Qed.
Section B.
Variable bld : build.
Lemma coded_id origin s (e c : parth * bytes) : coded bld origin s e c -> p_id (fst c) = p_id (fst e).
Proof.
  destruct s; cbn [coded].
  - now intros ->.
  - intros [T _]. eapply travels_id; eauto.
  - intros [T _]. eapply travels_id; eauto.
  - intros [T _]. eapply travels_id; eauto.
  - intros [T _]. eapply travels_id; eauto.
Qed.
Lemma coded_ids origin st (es cs : entries) : Forall2 (fun e c => coded bld origin (st (p_id (fst e))) e c) es cs ->
  map (fun e : parth * bytes => p_id (fst e)) es = map (fun e : parth * bytes => p_id (fst e)) cs.
Proof. induction 1 as [|e c es cs H _ IH]; [reflexivity|]. cbn [map]. rewrite IH. f_equal. symmetry. eapply coded_id; eauto. Qed.

Lemma decode_loop_ok sha origin hp g inp (es cs : entries) (st : Z -> setting) :
  good_hash sha -> wf_header hp -> lay hp es -> Forall clean es ->
  Forall (fun e : parth * bytes => (st (p_id (fst e)) <> AsIs -> has_setting hp (p_id (fst e)) (st (p_id (fst e)))) /\ origin_has origin (p_id (fst e)) /\
     (st (p_id (fst e)) = Tree -> tree_of_earlier sha hp es (fst e) (snd e))) es ->
  4096 + zlen (concat (map snd es)) < 2^62 ->
  (exists H R, zlen H = 4096 /\ inp = H ++ concat (map snd cs) ++ R) ->
  forall (es2 cs2 es1 cs1 : entries) h n f, es = es1 ++ es2 -> cs = cs1 ++ cs2 ->
  map (fun e : parth * bytes => p_id (fst e)) es = map (fun e : parth * bytes => p_id (fst e)) (es1 ++ cs2) ->
  Forall2 (fun e c => coded bld origin (st (p_id (fst e))) e c) es2 cs2 ->
  lay h (es1 ++ cs2) -> same_besides_table hp h ->
  (es1 = [] -> f = g) -> (es1 <> [] -> f = fwrite_at g 0 (enc_header h ++ concat (map snd es1))) ->
  (length es2 <= n)%nat -> (n + length es1 = 32)%nat -> es <> [] ->
  decode_loop bld sha origin inp n h (length es1) (4096 + zlen (concat (map snd cs1))) f = (hp, fwrite_at g 0 (enc_header hp ++ concat (map snd es)), Ok tt).
Proof.
  intros Hs W Lp Cl St Bp (H & R & LH & Ei). induction es2 as [|e es2 IH]; intros cs2 es1 cs1 h n f Ees Ecs Eid F L Sb F0 F1 Hn Hn32 Ne.
  - inversion F; subst cs2. rewrite app_nil_r in *. subst es1 cs1.
    assert (Eh : h = hp).
    { rewrite Sb, (la_table _ _ L), <- (la_table _ _ Lp). apply with_parts_id. }
    rewrite (F1 Ne), Eh. destruct n as [|n]; [reflexivity|]. cbn [decode_loop].
    rewrite (la_table _ _ Lp). rewrite nth_error_app2 by (rewrite map_length; lia). rewrite map_length, Nat.sub_diag.
    replace (32 - length es)%nat with (S n) by lia. reflexivity.
  - inversion F as [|? c ? cs2' Cc F']; subst. rename cs2' into cs2.
    destruct n as [|n]; [cbn [length] in Hn; lia|]. cbn [decode_loop].
    assert (Hin : In e (es1 ++ e :: es2)) by (apply in_or_app; right; left; reflexivity).
    rewrite Forall_forall in Cl, St. pose proof (Cl _ Hin) as Ce. destruct (St _ Hin) as (Se & Og & Tr).
    assert (Nth : nth_error (h_parts h) (length es1) = Some (fst c)).
    { destruct c as [q d]. exact (proj2 (lay_get _ _ _ _ _ L)). }
    rewrite Nth. destruct (Z.eqb_spec (p_id (fst c)) 0) as [Z0|_].
    { exfalso. pose proof (la_nonzero _ _ L) as N. apply Forall_app in N as [_ N]. inversion N; subst. contradiction. }
    pose proof (zlen_enc_same _ _ _ W Sb L) as Lh.
    assert (Fh : put_header f h = fwrite_at g 0 (enc_header h ++ concat (map snd es1))).
    { unfold put_header. destruct es1 as [|x es1].
      - rewrite (F0 eq_refl). cbn [map concat]. now rewrite app_nil_r.
      - rewrite F1 by discriminate. now apply fwrite_rehead. }
    rewrite zlen_split in Bp. pose proof (zlen_nonneg (concat (map snd es2))). pose proof (zlen_nonneg (concat (map snd cs1))).
    pose proof (zlen_nonneg R). pose proof (zlen_nonneg (concat (map snd cs2))).
    destruct (part_decoded bld sha origin hp h g (H ++ concat (map snd (cs1 ++ c :: cs2)) ++ R) es1 cs2 e c (4096 + zlen (concat (map snd cs1))) (st (p_id (fst e))))
      as (d0 & d1 & Ds & Fx & Dc & Df); auto; try lia.
    + rewrite slice_part by auto. reflexivity.
    + rewrite !zlen_app, LH, zlen_split. lia.
    + intros Et. destruct (Tr Et) as (a & fs & data & b & c' & salt & ls & Esp & Hid & Ms & Ls & Bd & Md & Hl & Etr).
      exists a, fs, data, b, salt, ls.
      assert (es1 = a ++ (fs, data) :: b) as Ea.
      { pose proof (la_distinct _ _ Lp) as Nd. destruct e as [t tree]. cbn [fst snd] in *.
        apply (split_unique (fun e : parth * bytes => p_id (fst e)) _ _ (t, tree) es2 c' Nd). rewrite Esp, <- app_assoc. reflexivity. }
      split; [exact Ea|]. split; [|do 5 (split; [assumption|]); exact Etr].
      unfold hash_tree_id_to_part_id. rewrite (tree_loop_ids _ (h_parts h) (h_parts hp)) by (eapply lay_ids; eauto).
      rewrite Hid. apply (hash_tree_inverse hp fs); [apply W|].
      rewrite (la_table _ _ Lp), Ea. apply in_or_app. left. rewrite !map_app. cbn [map fst]. rewrite <- app_assoc. apply in_or_app. right. left. reflexivity.
    + unfold decode_part.
      assert (O : match origin with
        | Some q => match get_part (pk_header q) (p_id (fst c)) with Ok _ => Ok tt | Err e => Err e | UB => UB | Stuck => Stuck end
        | None => Ok tt
        end = Ok tt).
      { destruct origin as [q|]; [|reflexivity]. destruct Og as (eo & Hq & _ & Ho). apply in_map_iff in Ho as ([gp od] & E2 & Ho).
        apply in_split in Ho as (a & b & ->). cbn [fst] in E2. rewrite (coded_id _ _ _ _ Cc), <- E2.
        rewrite (proj1 (get_part_at _ _ _ _ _ Hq)). reflexivity. }
      rewrite O, Fh, Ds, Dc, Df.
      destruct e as [q d], c as [q' d']. cbn [fst snd] in *.
      destruct Ce as (We & Fe & Te & Ze). cbn [fst snd] in *.
      assert (Pq : part_size q = zlen d). { apply (lay_bound _ _ _ _ Lp). }
      destruct (lay_upd _ _ _ _ _ q d L) as [L1 _]; [symmetry; eapply coded_id in Cc; exact Cc|exact Pq|].
      set (h1 := set_part h (length es1) q) in *. assert (Sb1 : same_besides_table hp h1) by now apply same_set.
      rewrite app_cons in L1. pose proof (zlen_enc_same _ _ _ W Sb1 L1) as Lh1.
      rewrite fwrite_rehead by congruence.
      replace (S (length es1)) with (length (es1 ++ [(q, d)])) by (rewrite app_length; cbn [length]; lia).
      replace (4096 + zlen (concat (map snd cs1)) + zlen d') with (4096 + zlen (concat (map snd (cs1 ++ [(q', d')])))).
      2:{ rewrite map_app, concat_app, zlen_app. cbn [map concat snd]. rewrite app_nil_r. lia. }
      apply IH with (cs2 := cs2); auto.
      * now rewrite app_cons.
      * now rewrite app_cons.
      * rewrite Eid, !map_app. cbn [map fst]. rewrite <- app_assoc. cbn [app]. pose proof (coded_id _ _ _ _ Cc) as Ci. cbn [fst] in Ci. rewrite Ci. reflexivity.
      * intros E. destruct es1; discriminate.
      * intros _. rewrite (map_app snd es1), concat_app. cbn [map concat snd]. rewrite app_nil_r. reflexivity.
      * cbn [length] in Hn. lia.
      * rewrite app_length. cbn [length]. lia.
Qed.
End B.
