(* CrashProofs.v -- killed calls leave a package, possibly with bytes behind it *)
From Verif Require Import BaseLemmas HeaderModel HeaderSpec HeaderHistory CodecProofs PartProofs MetaProofs CrcModel CrcProofs HashModel MerkleModel
  VerifyModel VerifySpec VerifyProofs VerifySign VerifyWitness PkgModel PkgSpec PkgProofs PkgAdd PkgDelete PkgHistory PkgApi CrashModel CrashSpec.

(* ---- the operation lists are those of the calls ---- *)
Lemma replay_app f a b : fs_replay f (a ++ b) = fs_replay (fs_replay f a) b.
Proof. apply fold_left_app. Qed.
Lemma copy_in_replay : forall fuel f pos (data : bytes) left f' pos', copy_in_loop fuel f pos data left = Ok (f', pos') ->
  fs_replay f (copy_in_ops fuel pos data left) = f'.
Proof.
  induction fuel as [|k IH]; intros f pos data left f' pos'; cbn [copy_in_loop copy_in_ops].
  - destruct (left =? 0); [|discriminate]. intros E. injection E as -> ->. reflexivity.
  - destruct (left =? 0); [intros E; injection E as -> ->; reflexivity|]. intros E. apply IH in E. exact E.
Qed.
Lemma hash_and_write_replay sha p : pk_file (fst (hash_and_write sha p)) = fs_replay (pk_file p) (header_ops sha p).
Proof.
  unfold hash_and_write, header_ops. assert (Ef : pk_file (fst (pkg_update_hash sha p None)) = pk_file p).
  { unfold pkg_update_hash. destruct (compute_payload_hash _ _ _ _ _); reflexivity. }
  destruct (pkg_update_hash sha p None) as [p' [a|e| |]]; cbn [fst] in *; try (cbn [fs_replay fold_left]; exact Ef).
  cbn [fs_replay fold_left fs_apply]. unfold pkg_write_header. cbn [pk_file]. now rewrite Ef.
Qed.
Lemma header_ops_nil sha p : header_ops sha p = [] <-> snd (hash_and_write sha p) <> Ok tt.
Proof.
  unfold header_ops, hash_and_write. destruct (pkg_update_hash sha p None) as [p' [a|e| |]]; cbn [snd]; split; try discriminate; auto.
  intros H. now elim H.
Qed.
Lemma copy_in_total : forall fuel f pos (data : bytes), zlen data < 2^63 -> (zlen data + 4095) / 4096 <= Z.of_nat fuel ->
  exists f', copy_in_loop fuel f pos data (zlen data) = Ok (f', pos + zlen data).
Proof.
  induction fuel as [|k IH]; intros f pos data Hd Hf; cbn [copy_in_loop].
  - destruct (Z.eqb_spec (zlen data) 0) as [E|E]; [exists f; rewrite E, Z.add_0_r; reflexivity|].
    pose proof (zlen_nonneg data). lia.
  - destruct (Z.eqb_spec (zlen data) 0) as [E|E]; [exists f; rewrite E, Z.add_0_r; reflexivity|].
    pose proof (zlen_nonneg data) as Hn. pose proof (zlen_ztake CHUNK data) as Ht. pose proof (zlen_zdrop CHUNK data) as Hdr.
    unfold CHUNK in *. unfold u64. rewrite Z.mod_small by lia.
    replace (zlen data - zlen (ztake 4096 data)) with (zlen (zdrop 4096 data)) by lia.
    destruct (IH (fwrite_at f pos (ztake 4096 data)) (pos + zlen (ztake 4096 data)) (zdrop 4096 data)) as [f' E']; try lia.
    exists f'. rewrite E'. f_equal. f_equal. lia.
Qed.
Theorem add_file_replay sha p data name flags : zlen data < 2^63 ->
  fs_replay (pk_file p) (add_file_ops sha p data name flags) = pk_file (fst (pkg_add_file sha p data name flags)).
Proof.
  intros Hd. unfold add_file_ops, pkg_add_file. destruct (add_part (pk_header p) (bpak_id name)) as [h1 [i|e| |]]; try reflexivity.
  destruct (s64 (append_offset (pk_header p)) <? 0); [reflexivity|].
  pose proof (zlen_nonneg data) as Hn.
  destruct (copy_in_total (Z.to_nat (zlen data / CHUNK + 1)) (pk_file p) (append_offset (pk_header p)) data Hd) as [f' E].
  { unfold CHUNK. lia. }
  rewrite E. rewrite hash_and_write_replay. cbn [pk_file].
  rewrite !replay_app, (copy_in_replay _ _ _ _ _ _ _ E).
  assert (X : fs_replay f' (if pad_for (zlen data) =? 0 then []
    else [FsData (append_offset (pk_header p) + zlen data) (zeros (pad_for (zlen data)))]) =
    fwrite_at f' (append_offset (pk_header p) + zlen data) (zeros (pad_for (zlen data)))); [|now rewrite X].
  destruct (Z.eqb_spec (pad_for (zlen data)) 0) as [->|]; [|reflexivity].
  cbn [fs_replay fold_left]. change (zeros 0) with (@nil Z). unfold fwrite_at. reflexivity.
Qed.
Lemma move_down_replay : forall fuel f rd wr left f', move_down_loop fuel f rd wr left = Ok f' ->
  fs_replay f (move_down_ops fuel f rd wr left) = f'.
Proof.
  induction fuel as [|k IH]; intros f rd wr left f'; cbn [move_down_loop move_down_ops].
  - destruct (left =? 0); [|discriminate]. intros E. injection E as ->. reflexivity.
  - destruct (left =? 0); [intros E; injection E as ->; reflexivity|]. intros E. apply IH in E. exact E.
Qed.
Theorem delete_part_replay sha p id rm : snd (pkg_delete_part sha p id rm) = Ok tt ->
  fs_replay (pk_file p) (delete_part_ops sha p id rm) = pk_file (fst (pkg_delete_part sha p id rm)).
Proof.
  unfold delete_part_ops, pkg_delete_part. destruct (get_part (pk_header p) id) as [i|e| |]; try discriminate.
  destruct (nth_error (h_parts (pk_header p)) i) as [q|]; [|discriminate].
  destruct (del_part (pk_header p) i) as [h1|e| |]; try discriminate.
  destruct (shift_offsets (part_size q) (skipn i (h_parts h1)) 0) as [tail todo].
  destruct (if rm then _ else _) as [h3|e| |]; try discriminate.
  destruct (move_down_loop _ _ _ _ _) as [f1|e| |] eqn:E; try discriminate.
  rewrite (move_down_replay _ _ _ _ _ _ E).
  pose proof (hash_and_write_replay sha (mkPkg h3 f1)) as R. pose proof (header_ops_nil sha (mkPkg h3 f1)) as N.
  destruct (hash_and_write sha (mkPkg h3 f1)) as [p' [a|e| |]]; cbn [fst snd pk_file] in *; try discriminate. intros _.
  destruct (header_ops sha (mkPkg h3 f1)) as [|o hs]; [now elim (proj1 N eq_refl); destruct a|].
  rewrite app_assoc, !replay_app, (move_down_replay _ _ _ _ _ _ E), <- R. reflexivity.
Qed.
Theorem delete_all_replay sha p rm : snd (pkg_delete_all_parts sha p rm) = Ok tt ->
  fs_replay (pk_file p) (delete_all_ops sha p rm) = pk_file (fst (pkg_delete_all_parts sha p rm)).
Proof.
  unfold delete_all_ops, pkg_delete_all_parts. destruct (if rm then _ else _) as [h2|e| |]; try discriminate.
  pose proof (hash_and_write_replay sha (mkPkg h2 (pk_file p))) as R. pose proof (header_ops_nil sha (mkPkg h2 (pk_file p))) as N.
  destruct (hash_and_write sha (mkPkg h2 (pk_file p))) as [p' [a|e| |]]; cbn [fst snd pk_file] in *; try discriminate. intros _.
  destruct (header_ops sha (mkPkg h2 (pk_file p))) as [|o hs]; [now elim (proj1 N eq_refl); destruct a|].
  rewrite !replay_app, <- R. reflexivity.
Qed.

(* ---- crash points ---- *)
Lemma crashed_app torn : forall f a b g, crashed torn f (a ++ b) g -> crashed torn f a g \/ crashed torn (fs_replay f a) b g.
Proof.
  intros f a. revert f. induction a as [|o a IH]; intros f b g C; [right; exact C|].
  cbn [app] in C. inversion C; subst.
  - left. constructor.
  - left. constructor.
  - left. now constructor.
  - destruct (IH _ _ _ H3) as [L|R]; [left; now constructor|right; exact R].
Qed.
Lemma crashed_nil torn f g : crashed torn f [] g -> g = f.
Proof. inversion 1. reflexivity. Qed.
Lemma crashed_header f b g : crashed false f [FsHeader b] g -> g = f \/ g = fs_apply f (FsHeader b).
Proof.
  inversion 1; subst; auto.
  - discriminate.
  - right. now apply crashed_nil in H4.
Qed.
Lemma crashed_trunc f n g : crashed false f [FsTrunc n] g -> g = f \/ g = fs_apply f (FsTrunc n).
Proof. inversion 1; subst; auto. right. now apply crashed_nil in H4. Qed.

(* data written behind position [n] leaves the first [n] bytes alone *)
Definition behind (n : Z) (o : fsop) : Prop := match o with FsData pos _ => n <= pos | _ => False end.
Lemma fwrite_at_behind n f pos b : 0 <= n -> n <= zlen f -> n <= pos ->
  ztake n (fwrite_at f pos b) = ztake n f /\ n <= zlen (fwrite_at f pos b).
Proof.
  intros Hn Hf Hp. unfold fwrite_at. destruct (zlen b =? 0); [split; auto|].
  pose proof (zlen_nonneg b). destruct (Z.leb_spec pos (zlen f)).
  - unfold splice. rewrite ztake_app_l by (rewrite zlen_ztake; lia). rewrite ztake_ztake.
    replace (Z.min n pos) with n by lia. split; auto. rewrite zlen_app, zlen_ztake, zlen_app.
    pose proof (zlen_nonneg (zdrop (pos + zlen b) f)). lia.
  - rewrite ztake_app_l by lia. split; auto. rewrite zlen_app. pose proof (zlen_nonneg (zeros (pos - zlen f) ++ b)). lia.
Qed.
Lemma crashed_behind torn n : 0 <= n -> forall f ops g, crashed torn f ops g -> Forall (behind n) ops -> n <= zlen f ->
  ztake n g = ztake n f /\ n <= zlen g.
Proof.
  intros Hn f ops g C. induction C; intros F Hf; auto.
  - inversion F; subst. cbn [behind] in *. now apply fwrite_at_behind.
  - inversion F; subst. contradiction.
  - inversion F as [|? ? B F']; subst. destruct o as [pos b|b|t]; cbn [behind] in B; try contradiction.
    cbn [fs_apply] in *. destruct (fwrite_at_behind n f pos b Hn Hf B) as [A1 A2].
    destruct (IHC F' A2) as [B1 B2]. split; [congruence|auto].
Qed.
Lemma replay_behind n : 0 <= n -> forall ops f, Forall (behind n) ops -> n <= zlen f ->
  ztake n (fs_replay f ops) = ztake n f /\ n <= zlen (fs_replay f ops).
Proof.
  intros Hn ops f F Hf. apply (crashed_behind true n Hn f ops); auto. clear. revert f.
  induction ops as [|o ops IH]; intros f; [constructor|]. constructor. apply IH.
Qed.
Lemma copy_in_behind n : forall fuel pos (data : bytes) left, n <= pos -> Forall (behind n) (copy_in_ops fuel pos data left).
Proof.
  induction fuel as [|k IH]; intros pos data left H; cbn [copy_in_ops]; destruct (left =? 0); constructor; auto.
  apply IH. pose proof (zlen_nonneg (ztake CHUNK data)). lia.
Qed.

(* ---- bytes behind the package make no difference ---- *)
Lemma fwrite_mid (A J d : bytes) : fwrite_at (A ++ J) (zlen A) d = A ++ d ++ zdrop (zlen d) J.
Proof.
  pose proof (zlen_nonneg A). pose proof (zlen_nonneg J). pose proof (zlen_nonneg d).
  rewrite fwrite_at_in by (rewrite ?zlen_app; lia). unfold splice. rewrite ztake_app_l, ztake_all by lia.
  rewrite zdrop_app_r by lia. do 3 f_equal. lia.
Qed.
Lemma copy_in_junk : forall fuel (A J data : bytes), zlen data < 2^63 -> (zlen data + 4095) / 4096 <= Z.of_nat fuel ->
  copy_in_loop fuel (A ++ J) (zlen A) data (zlen data) = Ok (A ++ data ++ zdrop (zlen data) J, zlen A + zlen data).
Proof.
  induction fuel as [|k IH]; intros A J data Hd Hf; cbn [copy_in_loop].
  - destruct (Z.eqb_spec (zlen data) 0) as [E|E].
    + apply zlen_0_nil in E as ->. change (zlen (@nil Z)) with 0. now rewrite zdrop_0, Z.add_0_r.
    + pose proof (zlen_nonneg data). lia.
  - destruct (Z.eqb_spec (zlen data) 0) as [E|E].
    + apply zlen_0_nil in E as ->. change (zlen (@nil Z)) with 0. now rewrite zdrop_0, Z.add_0_r.
    + pose proof (zlen_nonneg data) as Hn. rewrite fwrite_mid.
      pose proof (zlen_ztake CHUNK data) as Ht. pose proof (zlen_zdrop CHUNK data) as Hdr. unfold CHUNK in *.
      unfold u64. rewrite Z.mod_small by lia.
      replace (zlen data - zlen (ztake 4096 data)) with (zlen (zdrop 4096 data)) by lia.
      rewrite <- zlen_app. rewrite app_assoc, IH by lia. rewrite <- !app_assoc. pose proof (zlen_nonneg (zdrop 4096 data)). pose proof (zlen_nonneg (ztake 4096 data)).
      rewrite zdrop_zdrop by lia. f_equal. f_equal.
      * rewrite app_assoc with (m := zdrop 4096 data), ztake_zdrop. do 3 f_equal. lia.
      * rewrite zlen_app. lia.
Qed.
Lemma placed_range : forall l pos x, Forall wf_part l -> 0 <= pos -> In x (placed pos l) -> 0 <= snd x /\ 0 <= stored_size (fst x).
Proof.
  induction l as [|q l IH]; intros pos x W Hp; cbn [placed]; [intros []|]. inversion W; subst.
  pose proof (stored_size_nonneg q ltac:(auto)). intros [<-|Hx]; [cbn [fst snd]; lia|].
  apply (IH (pos + stored_size q)); auto; lia.
Qed.
Lemma payload_junk (F J : bytes) pos slots : Forall wf_part slots -> 0 <= pos -> payload_present F pos slots ->
  payload_present (F ++ J) pos slots /\ hashed_payload (F ++ J) pos slots = hashed_payload F pos slots.
Proof.
  intros W Hp P. pose proof (zlen_nonneg J). split.
  - unfold payload_present in *. eapply Forall_impl; [|exact P]. intros x [E|L]; [left; auto|right; rewrite zlen_app; lia].
  - unfold hashed_payload. f_equal. apply map_ext_in. intros x Hx. unfold payload_present in P.
    rewrite Forall_forall in P. specialize (P x Hx). unfold hashed_parts in Hx. apply filter_In in Hx as [Hx _].
    apply placed_range in Hx; auto. 2:{ unfold used. apply Forall_forall. intros q Hq. apply filter_In in Hq as [Hq _]. rewrite Forall_forall in W; auto. }
    destruct P as [E|L]; [rewrite E, !slice_neg_len by lia; reflexivity|]. apply slice_app_l; lia.
Qed.
Lemma hash_and_write_junk sha h (F J : bytes) p' : wf_header h -> sizes_ok (h_parts h) -> hash_supported (h_hash_kind h) = true ->
  good_hash sha -> 4096 <= zlen F -> hash_and_write sha (mkPkg h F) = (p', Ok tt) ->
  hash_and_write sha (mkPkg h (F ++ J)) = (mkPkg (pk_header p') (pk_file p' ++ J), Ok tt).
Proof.
  intros W S Hs G L E.
  assert (P : payload_present F 4096 (h_parts h)).
  { destruct (payload_hash_spec sha h F HDR_SIZE 64 S ltac:(unfold HDR_SIZE; lia)) as [_ H]. destruct (H Hs) as [H1 _].
    pose proof (present_iff F 4096 (h_parts h)) as PI. unfold HDR_SIZE in *.
    match type of PI with context [forallb ?a ?b] => destruct (forallb a b) eqn:Fb end; [now apply PI|].
    exfalso. unfold hash_and_write, pkg_update_hash in E. cbn [pk_header pk_file] in E. unfold HDR_SIZE in E.
    rewrite H1 in E; [discriminate|]. intros X. apply PI in X. congruence. }
  destruct (payload_junk F J 4096 (h_parts h)) as [P' Hp]; auto; [|lia|].
  { apply (wf_parts _ W). }
  destruct (hash_and_write_spec sha h F W S Hs P G) as (_ & E1 & _).
  destruct (hash_and_write_spec sha h (F ++ J) W S Hs P' G) as (_ & E2 & _).
  rewrite Hp in E2. rewrite E1 in E. injection E as <-. rewrite E2. cbn [pk_header pk_file].
  rewrite zdrop_app_l by lia. now rewrite app_assoc.
Qed.

Definition with_junk (p : pkg) (J : bytes) : pkg := mkPkg (pk_header p) (pk_file p ++ J).
Lemma add_junk sha p es data name flags J : good_hash sha -> holds p es -> plain es ->
  hash_supported (h_hash_kind (pk_header p)) = true ->
  bytes_ok name -> bpak_id name <> 0 -> ~ In (bpak_id name) (map (fun e : parth * bytes => p_id (fst e)) es) -> (length es < 32)%nat ->
  0 <= flags < 256 -> Z.testbit flags 1 = false -> zlen (pk_file p) + zlen data + 512 <= 2^63 ->
  forall p', pkg_add_file sha p data name flags = (p', Ok tt) ->
  pkg_add_file sha (with_junk p J) data name flags = (with_junk p' (zdrop (zlen data + padding (zlen data)) J), Ok tt).
Proof.
  intros G H P Hs Hnm Hid Hnin Hl Hfl Hft Hb p' E.
  pose proof (padding_range (zlen data)) as Hp. pose proof (zlen_nonneg data) as Hd. pose proof (zlen_nonneg (pk_file p)) as Hf.
  destruct (add_file_ok sha p es data name flags) as (p2 & E2 & H' & _); auto. rewrite E in E2. injection E2 as <-.
  unfold pkg_add_file in *. cbn [with_junk pk_header pk_file] in *. rewrite (append_offset_spec p es H P) in *.
  rewrite (add_part_holds p es _ H Hid) in *.
  destruct (existsb _ es); [discriminate|]. destruct (Nat.leb_spec 32 (length es)); [lia|].
  rewrite pad_for_padding in * by lia. rewrite filled_header in * by auto.
  rewrite s64_small in * by lia. destruct (Z.ltb_spec (zlen (pk_file p)) 0); [lia|].
  rewrite copy_in_spec in E by (unfold CHUNK; lia). rewrite copy_in_junk by (unfold CHUNK; lia).
  rewrite fwrite_at_end in E by (rewrite zlen_app; reflexivity).
  replace (fwrite_at (pk_file p ++ data ++ zdrop (zlen data) J) (zlen (pk_file p) + zlen data) (zeros (padding (zlen data))))
    with (((pk_file p ++ data) ++ zeros (padding (zlen data))) ++ zdrop (zlen data + padding (zlen data)) J).
  2:{ rewrite <- zlen_app, app_assoc, fwrite_mid, zlen_zeros, zdrop_zdrop, <- !app_assoc by lia. do 4 f_equal. lia. }
  pose proof (zlen_enc_header _ (ho_wf _ _ H)) as Le.
  assert (Lf : 4096 <= zlen (pk_file p)).
  { rewrite (ho_file _ _ H), zlen_app. pose proof (zlen_nonneg (concat (map snd es))). lia. }
  apply hash_and_write_junk; auto.
  - apply wf_with_parts; [apply (ho_wf _ _ H)| |].
    + rewrite app_length, map_length. cbn [length]. rewrite repeat_length. lia.
    + apply Forall_app. split; [exact (wf_parts_app _ _ _ (ho_wf _ _ H) (ho_table _ _ H))|]. constructor.
      * apply wf_new_part; try lia. now apply bpak_id_bound.
      * apply Forall_forall. intros x Hx. apply repeat_spec in Hx as ->. exact wf_zero_part.
  - cbn [h_parts with_parts].
    assert (T : map fst es ++ mkPart (bpak_id name) (zlen data) (zlen (pk_file p)) 0 (padding (zlen data)) flags 0 :: repeat zero_part (31 - length es)
            = table (map fst (es ++ [(new_part p (bpak_id name) data flags, data ++ zeros (padding (zlen data)))]))).
    { unfold table. rewrite map_app, app_length, map_length. cbn [map fst length]. rewrite <- app_assoc. cbn [app].
      unfold new_part. do 3 f_equal. lia. }
    rewrite T. apply sizes_of.
    + apply (ho_sizes _ _ H').
    + rewrite map_app. exact (wf_parts_app _ _ _ (ho_wf _ _ H') (eq_trans (ho_table _ _ H') (f_equal (fun x => x ++ _) (map_app _ _ _)))).
    + pose proof (ho_bound _ _ H') as B. rewrite (ho_file _ _ H'), zlen_app in B. pose proof (zlen_nonneg (enc_header (pk_header p'))). lia.
  - rewrite !zlen_app. pose proof (zlen_nonneg (zeros (padding (zlen data)))). lia.
Qed.

Lemma open_junk sha w p es J : holds p es -> valid_header (pk_header p) = Ok tt ->
  pkg_open sha w (pk_file p ++ J) = (pk_file p ++ J, Ok (with_junk p J)).
Proof.
  intros H V. pose proof (ho_file _ _ H) as F. pose proof (zlen_enc_header _ (ho_wf _ _ H)) as L.
  pose proof (zlen_nonneg J) as Hj. pose proof (zlen_nonneg (concat (map snd es))) as Hc.
  destruct (open_existing sha w (pk_file p ++ J)) as (A & B & _).
  { rewrite F, !zlen_app. lia. }
  assert (D : dec_header (ztake 4096 (pk_file p ++ J)) = pk_header p).
  { rewrite ztake_app_l by (rewrite F, zlen_app; lia). rewrite F, ztake_app_l, ztake_all by lia. apply dec_enc_header. apply (ho_wf _ _ H). }
  rewrite D in B. specialize (B (with_junk p J)). destruct (pkg_open sha w (pk_file p ++ J)) as [f r]. cbn [fst snd] in *. subst f.
  f_equal. apply B. split; auto.
Qed.
Lemma copy_out_junk (f J : bytes) : forall fuel pos left out o, 0 <= pos -> 0 <= left -> copy_out_loop fuel f pos left out = (o, Ok tt) ->
  copy_out_loop fuel (f ++ J) pos left out = (o, Ok tt).
Proof.
  induction fuel as [|k IH]; intros pos left out o Hp Hl; cbn [copy_out_loop]; [auto|].
  destruct (Z.eqb_spec left 0); [auto|]. set (m := if left >? CHUNK then CHUNK else left).
  assert (Hn : 0 < m <= left) by (subst m; unfold CHUNK; destruct (Z.gtb_spec left 4096); lia).
  unfold fread_at. destruct (Z.eqb_spec (zlen (slice pos m f)) m) as [E|]; [|discriminate].
  assert (Bd : pos + m <= zlen f).
  { rewrite zlen_slice in E. pose proof (zlen_nonneg f). lia. }
  rewrite slice_app_l by lia. rewrite E, Z.eqb_refl. apply IH; lia.
Qed.
Lemma u64_nonneg x : 0 <= u64 x.
Proof. unfold u64. lia. Qed.
Lemma extract_junk p id J d : pkg_extract_file p id = (Some d, Ok tt) -> pkg_extract_file (with_junk p J) id = (Some d, Ok tt).
Proof.
  unfold pkg_extract_file. cbn [with_junk pk_header pk_file]. destruct (get_part _ _) as [i| | |]; try discriminate.
  destruct (nth_error _ _) as [q|]; [|discriminate]. destruct (Z.ltb_spec (part_offset (pk_header p) q) 0); [discriminate|].
  set (left := u64 _). set (fuel := Z.to_nat _).
  destruct (copy_out_loop fuel (pk_file p) (part_offset (pk_header p) q) left []) as [out r] eqn:E.
  intros X. injection X as -> ->. rewrite (copy_out_junk (pk_file p) J fuel (part_offset (pk_header p) q) left [] d); auto. apply u64_nonneg.
Qed.
Lemma extract_junk_missing p id J : pkg_extract_file p id = (None, Err E_NOT_FOUND) ->
  pkg_extract_file (with_junk p J) id = (None, Err E_NOT_FOUND).
Proof.
  unfold pkg_extract_file. cbn [with_junk pk_header pk_file]. destruct (get_part _ _) as [i| | |]; auto.
  destruct (nth_error _ _) as [q|]; [|discriminate]. destruct (part_offset (pk_header p) q <? 0); [discriminate|].
  destruct (copy_out_loop _ (pk_file p) _ _ _); discriminate.
Qed.
