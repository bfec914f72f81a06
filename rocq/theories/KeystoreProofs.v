(* KeystoreProofs.v *)
From Coq Require Import Lia.
From Verif Require Import Base BaseLemmas HeaderModel HeaderSpec HeaderOps CodecProofs PartProofs MetaProofs CrcModel HashModel VerifyModel
  VerifySpec PkgModel PkgSpec PkgProofs PkgTrees KeystoreModel KeystoreSpec.

(* ---- bpak_keystore_get ---- *)
Lemma keystore_loop_spec keys : forall rest id i,
  match keystore_loop (length keys) id i (map Some keys ++ rest) with
  | Ok j => exists k, (i <= j)%nat /\ nth_error keys (j - i) = Some k /\ k_id k = id /\
              Forall (fun k' => k_id k' <> id) (firstn (j - i) keys)
  | Err e => e = E_KEY_NOT_FOUND /\ Forall (fun k => k_id k <> id) keys
  | _ => False
  end.
Proof.
  induction keys as [|k keys IH]; intros rest id i; cbn [length map app keystore_loop]; [auto|].
  destruct (Z.eqb_spec (k_id k) id) as [E|N].
  - exists k. rewrite Nat.sub_diag. cbn. repeat split; auto.
  - specialize (IH rest id (S i)). destruct (keystore_loop (length keys) id (S i) (map Some keys ++ rest)) as [j|e| |]; try contradiction.
    + destruct IH as (k' & L & H & E & F). exists k'. split; [lia|].
      replace (j - i)%nat with (S (j - S i)) by lia. cbn [nth_error firstn]. repeat split; auto.
    + destruct IH as [-> F]. split; auto.
Qed.
Lemma keystore_get_spec ks keys id : wf_keystore ks keys ->
  match keystore_get ks id with
  | (Some i, Ok _) => ks_verified ks = true /\ exists k, nth_error (ks_keys ks) i = Some (Some k) /\ nth_error keys i = Some k /\
                        k_id k = id /\ Forall (fun k' => k_id k' <> id) (firstn i keys)
  | (None, Err e) => (ks_verified ks = false /\ e = E_FAILED) \/
                     (ks_verified ks = true /\ e = E_KEY_NOT_FOUND /\ Forall (fun k => k_id k <> id) keys)
  | _ => False
  end.
Proof.
  intros (C & rest & K). unfold keystore_get. destruct (ks_verified ks); cbn [negb]; [|auto].
  rewrite C, K. replace (Z.to_nat (zlen keys)) with (length keys) by (unfold zlen; lia).
  pose proof (keystore_loop_spec keys rest id 0) as L.
  destruct (keystore_loop (length keys) id 0 (map Some keys ++ rest)) as [j|e| |]; try contradiction.
  - destruct L as (k & _ & N & E & F). rewrite Nat.sub_0_r in *. split; [reflexivity|]. exists k. split; [|auto].
    assert (j < length keys)%nat by (apply nth_error_Some; congruence).
    rewrite nth_error_app1 by (rewrite map_length; lia). apply map_nth_error. exact N.
  - destruct L as [-> F]. auto.
Qed.

(* ---- loading ---- *)
Lemma find_first {A} (p : A -> bool) (P : A -> Prop) (l : list A) :
  (forall x, p x = true <-> P x) ->
  (forall i, find_index p l = Some i -> exists x, nth_error l i = Some x /\ first_such P l x) /\
  (forall x, first_such P l x -> exists i, find_index p l = Some i /\ nth_error l i = Some x).
Proof.
  intros H. split.
  - intros i F. apply find_index_Some in F as (a & x & b & -> & <- & X & N). exists x.
    rewrite nth_error_app2, Nat.sub_diag by lia. split; [reflexivity|]. exists a, b. split; [reflexivity|]. split; [apply H; exact X|].
    eapply Forall_impl; [|exact N]. cbn. intros y Y Py. apply H in Py. congruence.
  - intros x (a & b & -> & X & N). exists (length a). split.
    + apply find_index_split; [|apply H; exact X]. eapply Forall_impl; [|exact N]. cbn. intros y Y.
      destruct (p y) eqn:E; [|reflexivity]. apply H in E. contradiction.
    + rewrite nth_error_app2, Nat.sub_diag by lia. reflexivity.
Qed.
Lemma first_unique {A} (P : A -> Prop) l x y : (forall z, P z \/ ~ P z) -> first_such P l x -> first_such P l y -> x = y.
Proof.
  intros D (a & b & -> & X & N) (a' & b' & E & Y & N').
  revert a' E N'. induction a as [|z a IH]; intros [|z' a'] E N'; cbn in E; injection E as E1 E2.
  - auto.
  - subst. inversion N'; contradiction.
  - subst. inversion N; contradiction.
  - subst. inversion N; inversion N'; subst. eapply IH; eauto.
Qed.
Lemma open_read sha f p : snd (pkg_open sha false f) = Ok p <-> has_header f (pk_header p) /\ pk_file p = f.
Proof.
  unfold pkg_open, has_header, fread_at. rewrite slice_0. unfold HDR_SIZE.
  pose proof (zlen_ztake 4096 f) as L. pose proof (zlen_nonneg f).
  destruct (Z.eqb_spec (zlen (ztake 4096 f)) 4096) as [E|E]; cbn [snd].
  - destruct (valid_header (dec_header (ztake 4096 f))) as [[]|e| |] eqn:V; cbn [bind]; split.
    + intros X. injection X as <-. cbn. repeat split; auto. lia.
    + intros ((_ & X & _) & F). destruct p as [h g]. cbn in *. subst. reflexivity.
    + discriminate.
    + intros ((_ & X & V') & F). rewrite X, V in V'. discriminate.
    + discriminate.
    + intros ((_ & X & V') & F). rewrite X, V in V'. discriminate.
    + discriminate.
    + intros ((_ & X & V') & F). rewrite X, V in V'. discriminate.
  - destruct (pkg_update_hash sha (mkPkg init_header f) None) as [q [|e| |]]; cbn [snd negb]; split; try discriminate;
      intros ((X & _) & _); lia.
Qed.
Lemma provider_read h id : (exists i b, get_meta h ID_KEYSTORE_PROVIDER_ID 0 = Ok i /\ meta_read h i 0 4 = Ok b /\ unle b = id) <-> provider_id h id.
Proof.
  destruct (find_first (key_match ID_KEYSTORE_PROVIDER_ID 0) (fun m => m_id m = ID_KEYSTORE_PROVIDER_ID /\ m_ref m = 0) (h_meta h)) as [A B].
  { intros m. unfold key_match. rewrite andb_true_iff, !Z.eqb_eq. reflexivity. }
  rewrite get_meta_find. split.
  - intros (i & b & G & R & V). destruct (find_index (key_match ID_KEYSTORE_PROVIDER_ID 0) (h_meta h)) as [j|] eqn:E; [|discriminate]. injection G as ->.
    destruct (A _ eq_refl) as (m & Nm & F). exists m. split; [exact F|].
    unfold meta_read in R. rewrite Nm in R. rewrite Z.add_0_r in R. rewrite Z.gtb_ltb in R.
    destruct (Z.ltb_spec METADATA_BYTES (m_offset m + 4)); [discriminate|]. injection R as <-. auto.
  - intros (m & F & L & V). destruct (B m F) as (i & -> & Nm). exists i. eexists. split; [reflexivity|].
    unfold meta_read. rewrite Nm, Z.add_0_r, Z.gtb_ltb. destruct (Z.ltb_spec METADATA_BYTES (m_offset m + 4)); [lia|]. auto.
Qed.
Lemma part_first h id : forall q, (exists j, get_part h id = Ok j /\ nth_error (h_parts h) j = Some q) <-> first_such (fun p => p_id p = id) (h_parts h) q.
Proof.
  intros q. destruct (find_first (fun p => p_id p =? id) (fun p => p_id p = id) (h_parts h)) as [A B].
  { intros m. apply Z.eqb_eq. }
  unfold get_part. split.
  - intros (j & G & N). destruct (find_index (fun p => p_id p =? id) (h_parts h)) as [i|]; [|discriminate]. injection G as ->.
    destruct (A _ eq_refl) as (x & X & F). rewrite N in X. injection X as <-. exact F.
  - intros F. destruct (B q F) as (i & -> & N). eauto.
Qed.
Definition passes (check : option (header -> Z)) (h : header) : Prop := forall c, check = Some c -> c h = 0.

Lemma load_iff sha parse f ks kid check k :
  keystore_load_key sha parse f ks kid check = Ok k <->
  exists h q k0, has_header f h /\ passes check h /\ provider_id h ks /\ first_such (fun p => p_id p = kid) (h_parts h) q /\
    0 <= part_offset h q /\
    zlen (slice (part_offset h q) (part_size_wo_pad q) f) = part_size_wo_pad q /\ part_size_wo_pad q <= 512 /\
    parse (slice (part_offset h q) (part_size_wo_pad q) f) = Ok k0 /\ k = with_id k0 kid.
Proof.
  unfold keystore_load_key, KEY_BUFFER, fread_at. split.
  - intros H. destruct (snd (pkg_open sha false f)) as [p|e| |] eqn:O; try discriminate. cbn [bind] in H.
    apply open_read in O as [O F].
    assert (P : passes check (pk_header p)).
    { intros c ->. destruct (Z.eqb_spec (c (pk_header p)) 0); [assumption|]. discriminate. }
    assert (P' : match check with None => Ok tt | Some c => if c (pk_header p) =? 0 then Ok tt else Err (c (pk_header p)) end = Ok tt).
    { destruct check as [c|]; [|reflexivity]. rewrite (P c eq_refl). reflexivity. }
    rewrite P' in H. cbn [bind] in H.
    destruct (get_meta (pk_header p) ID_KEYSTORE_PROVIDER_ID 0) as [i|e| |] eqn:G; try discriminate. cbn [bind] in H.
    destruct (meta_read (pk_header p) i 0 4) as [b|e| |] eqn:R; try discriminate. cbn [bind] in H.
    destruct (Z.eqb_spec (unle b) ks) as [V|V]; cbn [negb] in H; [|discriminate].
    destruct (get_part (pk_header p) kid) as [j|e| |] eqn:J; try discriminate. cbn [bind] in H.
    destruct (nth_error (h_parts (pk_header p)) j) as [q|] eqn:N; [|discriminate]. cbv zeta in H.
    destruct (Z.ltb_spec (part_offset (pk_header p) q) 0); [discriminate|].
    rewrite Z.gtb_ltb in H. destruct (Z.ltb_spec 512 (zlen (slice (part_offset (pk_header p) q) (part_size_wo_pad q) f))); [discriminate|].
    destruct (Z.eqb_spec (zlen (slice (part_offset (pk_header p) q) (part_size_wo_pad q) f)) (part_size_wo_pad q)) as [E|]; cbn [negb] in H; [|discriminate].
    destruct (parse (slice (part_offset (pk_header p) q) (part_size_wo_pad q) f)) as [k0|e| |] eqn:K; try discriminate. cbn [bind] in H.
    injection H as <-. exists (pk_header p), q, k0.
    split; [exact O|]. split; [exact P|]. split; [apply provider_read; eauto|]. split; [apply part_first; eauto|].
    split; [lia|]. split; [exact E|]. split; [lia|]. auto.
  - intros (h & q & k0 & O & P & V & F & Off & E & L & K & ->).
    assert (O' : snd (pkg_open sha false f) = Ok (mkPkg h f)) by (apply open_read; auto).
    rewrite O'. cbn [bind pk_header].
    assert (P' : match check with None => Ok tt | Some c => if c h =? 0 then Ok tt else Err (c h) end = Ok tt).
    { destruct check as [c|]; [|reflexivity]. rewrite (P c eq_refl). reflexivity. }
    rewrite P'. cbn [bind]. apply provider_read in V as (i & b & -> & R & V). cbn [bind]. rewrite R. cbn [bind].
    destruct (Z.eqb_spec (unle b) ks); [|contradiction]. cbn [negb].
    apply part_first in F as (j & -> & N). cbn [bind]. rewrite N.
    destruct (Z.ltb_spec (part_offset h q) 0); [lia|].
    rewrite Z.gtb_ltb, E. destruct (Z.ltb_spec 512 (part_size_wo_pad q)); [lia|]. rewrite Z.eqb_refl. cbn [negb].
    rewrite K. reflexivity.
Qed.
(* never undefined: as soon as the provider id lies inside the metadata block
   and the file holds no more than 512 bytes of the key part *)
Lemma valid_no_ub h : valid_header h <> UB /\ valid_header h <> Stuck.
Proof.
  unfold valid_header. repeat match goal with |- context [if ?c then _ else _] => destruct c end; split; discriminate.
Qed.
Lemma load_safe sha parse f ks kid check h :
  (forall d, parse d <> UB) -> has_header f h ->
  (forall m, first_such (fun m => m_id m = ID_KEYSTORE_PROVIDER_ID /\ m_ref m = 0) (h_meta h) m -> m_offset m + 4 <= METADATA_BYTES) ->
  (forall q, first_such (fun p => p_id p = kid) (h_parts h) q -> zlen (slice (part_offset h q) (part_size_wo_pad q) f) <= 512) ->
  keystore_load_key sha parse f ks kid check <> UB.
Proof.
  intros PU O M B. unfold keystore_load_key, KEY_BUFFER, fread_at.
  assert (O' : snd (pkg_open sha false f) = Ok (mkPkg h f)) by (apply open_read; auto).
  rewrite O'. cbn [bind pk_header].
  destruct (match check with None => Ok tt | Some c => if c h =? 0 then Ok tt else Err (c h) end) as [[]|e| |] eqn:P; cbn [bind].
  2: discriminate.
  2,3: destruct check as [c|]; [destruct (c h =? 0)|]; discriminate.
  rewrite get_meta_find.
  destruct (find_first (key_match ID_KEYSTORE_PROVIDER_ID 0) (fun m => m_id m = ID_KEYSTORE_PROVIDER_ID /\ m_ref m = 0) (h_meta h)) as [A _].
  { intros m. unfold key_match. rewrite andb_true_iff, !Z.eqb_eq. reflexivity. }
  destruct (find_index (key_match ID_KEYSTORE_PROVIDER_ID 0) (h_meta h)) as [i|]; [|discriminate]. cbn [bind].
  destruct (A i eq_refl) as (m & Nm & F). unfold meta_read. rewrite Nm, Z.add_0_r, Z.gtb_ltb.
  specialize (M m F). destruct (Z.ltb_spec METADATA_BYTES (m_offset m + 4)); [lia|]. cbn [bind].
  destruct (negb _); [discriminate|].
  destruct (get_part h kid) as [j|e| |] eqn:J; cbn [bind]; try discriminate.
  2: unfold get_part in J; destruct (find_index _ _); discriminate.
  destruct (nth_error (h_parts h) j) as [q|] eqn:N.
  - assert (FQ : first_such (fun p => p_id p = kid) (h_parts h) q) by (apply part_first; eauto).
    specialize (B q FQ). cbv zeta. destruct (part_offset h q <? 0); [discriminate|].
    rewrite Z.gtb_ltb. destruct (Z.ltb_spec 512 (zlen (slice (part_offset h q) (part_size_wo_pad q) f))); [lia|].
    destruct (negb _); [discriminate|]. specialize (PU (slice (part_offset h q) (part_size_wo_pad q) f)).
    destruct (parse _); cbn [bind]; try discriminate. contradiction.
  - unfold get_part in J. destruct (find_index (fun p => p_id p =? kid) (h_parts h)) as [i'|] eqn:E; [|discriminate]. injection J as ->.
    apply find_index_Some in E as (a & x & b & E & <- & _). rewrite E, nth_error_app2, Nat.sub_diag in N by lia. discriminate.
Qed.
(* exactly when the key buffer overflows *)
Lemma load_overflows sha parse f ks kid check h q :
  has_header f h -> passes check h -> provider_id h ks -> first_such (fun p => p_id p = kid) (h_parts h) q ->
  0 <= part_offset h q -> 512 < zlen (slice (part_offset h q) (part_size_wo_pad q) f) ->
  keystore_load_key sha parse f ks kid check = UB.
Proof.
  intros O P V F Off L. unfold keystore_load_key, KEY_BUFFER, fread_at.
  assert (O' : snd (pkg_open sha false f) = Ok (mkPkg h f)) by (apply open_read; auto).
  rewrite O'. cbn [bind pk_header].
  assert (P' : match check with None => Ok tt | Some c => if c h =? 0 then Ok tt else Err (c h) end = Ok tt).
  { destruct check as [c|]; [|reflexivity]. rewrite (P c eq_refl). reflexivity. }
  rewrite P'. cbn [bind]. apply provider_read in V as (i & b & -> & R & V). cbn [bind]. rewrite R. cbn [bind].
  destruct (Z.eqb_spec (unle b) ks); [|contradiction]. cbn [negb].
  apply part_first in F as (j & -> & N). cbn [bind]. rewrite N.
  destruct (Z.ltb_spec (part_offset h q) 0); [lia|]. cbv zeta.
  rewrite Z.gtb_ltb. destruct (Z.ltb_spec 512 (zlen (slice (part_offset h q) (part_size_wo_pad q) f))); [reflexivity|lia].
Qed.
(* a keystore package: parts [es], metadata [live] *)
Lemma holds_slice p (a : list (parth * bytes)) q (d : bytes) pad (b : list (parth * bytes)) :
  holds p (a ++ (q, d ++ zeros pad) :: b) -> Z.testbit (p_flags q) 1 = false -> p_size q = zlen d ->
  0 <= part_offset (pk_header p) q /\ part_size_wo_pad q = zlen d /\
  slice (part_offset (pk_header p) q) (part_size_wo_pad q) (pk_file p) = d.
Proof.
  intros H T S. rewrite (part_offset_at _ _ _ _ _ H). pose proof (zlen_nonneg (concat (map snd a))).
  split; [lia|].
  assert (W : part_size_wo_pad q = zlen d).
  { unfold part_size_wo_pad. replace (has_flag q FLAG_TRANSPORT) with false; [exact S|].
    symmetry. unfold has_flag, FLAG_TRANSPORT. replace (Z.land (p_flags q) 2) with 0; [reflexivity|].
    symmetry. apply Z.bits_inj'. intros n Hn. rewrite Z.land_spec, Z.bits_0.
    destruct (Z.eq_dec n 1) as [->|Nn]; [rewrite T; reflexivity|].
    replace (Z.testbit 2 n) with false; [apply andb_false_r|]. symmetry. change 2 with (2^1). apply Z.pow2_bits_false. lia. }
  split; [exact W|]. rewrite W. rewrite (ho_file _ _ H). rewrite map_app, concat_app. cbn [map concat snd].
  rewrite <- !app_assoc. rewrite app_assoc.
  apply slice_app_exact; [|reflexivity]. rewrite zlen_app, zlen_enc_header by apply (ho_wf _ _ H). reflexivity.
Qed.
Lemma metas_find h live id ref v : id <> 0 -> metas_are (h_meta h) (h_metadata h) live -> In (mkEntry id ref v) live ->
  exists i, get_meta h id ref = Ok i /\ meta_read h i 0 (zlen v) = Ok v.
Proof.
  intros Hid M I. destruct (get_meta_in h live id ref v Hid M I) as (i & G & N). exists i. split; [exact G|].
  destruct M as (_ & _ & _ & _ & _ & H & _). destruct (H i _ N) as (B & S & m & Hm & _ & _ & _ & Eo).
  cbn [e_val] in *. unfold meta_read, METADATA_BYTES. rewrite Hm, Eo, Z.add_0_r, Z.gtb_ltb.
  destruct (Z.ltb_spec 1920 (meta_end (firstn i live) + zlen v)); [lia|]. now rewrite S.
Qed.
Lemma provider_of h live v : metas_are (h_meta h) (h_metadata h) live -> In (mkEntry ID_KEYSTORE_PROVIDER_ID 0 v) live -> zlen v = 4 ->
  provider_id h (unle v).
Proof.
  intros M I L. apply provider_read. destruct (metas_find h live ID_KEYSTORE_PROVIDER_ID 0 v ltac:(discriminate) M I) as (i & G & R). rewrite L in R.
  exists i, v. auto.
Qed.
Lemma has_header_of p es : holds p es -> valid_header (pk_header p) = Ok tt -> has_header (pk_file p) (pk_header p).
Proof.
  intros H V. pose proof (ho_wf _ _ H) as W. pose proof (zlen_enc_header _ W) as L.
  pose proof (zlen_nonneg (concat (map snd es))).
  split; [rewrite (ho_file _ _ H), zlen_app, L; lia|]. split; [|exact V].
  rewrite (ho_file _ _ H). rewrite ztake_app_l by lia. rewrite ztake_all by lia. symmetry. apply dec_enc_header. exact W.
Qed.
Lemma holds_first p (a : list (parth * bytes)) q c b : holds p (a ++ (q, c) :: b) ->
  first_such (fun x => p_id x = p_id q) (h_parts (pk_header p)) q.
Proof. intros H. apply part_first. destruct (get_part_at _ _ _ _ _ H). eauto. Qed.
Lemma load_stored sha parse p (a : list (parth * bytes)) q (d : bytes) pad (b : list (parth * bytes)) live v check :
  holds p (a ++ (q, d ++ zeros pad) :: b) -> Z.testbit (p_flags q) 1 = false -> p_size q = zlen d ->
  valid_header (pk_header p) = Ok tt ->
  metas_are (h_meta (pk_header p)) (h_metadata (pk_header p)) live -> In (mkEntry ID_KEYSTORE_PROVIDER_ID 0 v) live -> zlen v = 4 ->
  passes check (pk_header p) ->
  (zlen d <= 512 ->
   keystore_load_key sha parse (pk_file p) (unle v) (p_id q) check = (do k <- parse d; Ok (with_id k (p_id q)))) /\
  (512 < zlen d -> keystore_load_key sha parse (pk_file p) (unle v) (p_id q) check = UB).
Proof.
  intros H T S V M I L C. destruct (holds_slice _ _ _ _ _ _ H T S) as (O & W & E).
  pose proof (has_header_of _ _ H V) as HH. pose proof (provider_of _ _ _ M I L) as PI. pose proof (holds_first _ _ _ _ _ H) as F.
  split.
  - intros D. unfold keystore_load_key, KEY_BUFFER, fread_at.
    assert (O' : snd (pkg_open sha false (pk_file p)) = Ok (mkPkg (pk_header p) (pk_file p))) by (apply open_read; auto).
    rewrite O'. cbn [bind pk_header].
    assert (P' : match check with None => Ok tt | Some c => if c (pk_header p) =? 0 then Ok tt else Err (c (pk_header p)) end = Ok tt).
    { destruct check as [c|]; [|reflexivity]. rewrite (C c eq_refl). reflexivity. }
    rewrite P'. cbn [bind]. apply provider_read in PI as (i & bb & -> & R & PV). cbn [bind]. rewrite R. cbn [bind].
    destruct (Z.eqb_spec (unle bb) (unle v)); [|contradiction]. cbn [negb].
    apply part_first in F as (j & -> & N). cbn [bind]. rewrite N. cbv zeta.
    destruct (Z.ltb_spec (part_offset (pk_header p) q) 0); [lia|]. rewrite E, W.
    rewrite Z.gtb_ltb. destruct (Z.ltb_spec 512 (zlen d)); [lia|]. rewrite Z.eqb_refl. reflexivity.
  - intros D. apply (load_overflows sha parse _ _ _ check _ q HH C PI F O). rewrite E. exact D.
Qed.
(* wrong keystore, missing key *)
Lemma load_wrong sha parse p es live v ks kid check :
  holds p es -> valid_header (pk_header p) = Ok tt ->
  metas_are (h_meta (pk_header p)) (h_metadata (pk_header p)) live -> passes check (pk_header p) ->
  (~ In (ID_KEYSTORE_PROVIDER_ID, 0) (map e_key live) -> keystore_load_key sha parse (pk_file p) ks kid check = Err E_NOT_FOUND) /\
  (In (mkEntry ID_KEYSTORE_PROVIDER_ID 0 v) live -> zlen v = 4 ->
   (unle v <> ks -> keystore_load_key sha parse (pk_file p) ks kid check = Err E_KEYSTORE_ID_MISMATCH) /\
   (unle v = ks -> kid <> 0 -> ~ In kid (map (fun e : parth * bytes => p_id (fst e)) es) ->
    keystore_load_key sha parse (pk_file p) ks kid check = Err E_NOT_FOUND)).
Proof.
  intros H V M C. pose proof (has_header_of _ _ H V) as HH. unfold keystore_load_key.
  assert (O' : snd (pkg_open sha false (pk_file p)) = Ok (mkPkg (pk_header p) (pk_file p))) by (apply open_read; auto).
  rewrite O'. cbn [bind pk_header].
  assert (P' : match check with None => Ok tt | Some c => if c (pk_header p) =? 0 then Ok tt else Err (c (pk_header p)) end = Ok tt).
  { destruct check as [c|]; [|reflexivity]. rewrite (C c eq_refl). reflexivity. }
  rewrite P'. cbn [bind]. split.
  - intros N. destruct (get_meta (pk_header p) ID_KEYSTORE_PROVIDER_ID 0) as [i|e| |] eqn:G.
    + exfalso. apply N. destruct (get_meta_ok_in _ _ ID_KEYSTORE_PROVIDER_ID _ _ ltac:(discriminate) M G) as (w & W).
      apply nth_error_In in W. apply (in_map e_key) in W. exact W.
    + rewrite get_meta_find in G. destruct (find_index _ _); [discriminate|]. injection G as <-. reflexivity.
    + rewrite get_meta_find in G. destruct (find_index _ _); discriminate.
    + rewrite get_meta_find in G. destruct (find_index _ _); discriminate.
  - intros I L. destruct (metas_find _ live ID_KEYSTORE_PROVIDER_ID 0 v ltac:(discriminate) M I) as (i & G & R). rewrite L in R.
    rewrite G. cbn [bind]. rewrite R. cbn [bind]. split.
    + intros N. destruct (Z.eqb_spec (unle v) ks); [contradiction|]. reflexivity.
    + intros -> K0 N. rewrite Z.eqb_refl. cbn [negb]. rewrite (get_part_none _ _ _ H K0 N). reflexivity.
Qed.
