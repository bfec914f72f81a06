(* PkgForget.v -- deleting a part removes every trace of it from the file *)
From Verif Require Import BaseLemmas HeaderModel HeaderSpec HeaderHistory CodecProofs PartProofs MetaProofs CrcModel HashModel MerkleModel MerkleApi
  VerifyModel VerifySpec VerifyProofs VerifySign PkgModel PkgSpec PkgProofs PkgAdd PkgDelete PkgHistory PkgApi.

Lemma hash_part_kind rd fuel : forall c pos left c' pos', hash_part_loop rd fuel c pos left = Ok (c', pos') -> fst c' = fst c.
Proof.
  induction fuel as [|k IH]; intros c pos left c' pos'; [discriminate|]. cbn [hash_part_loop].
  destruct (rd pos _); try discriminate. destruct (_ =? 0).
  - intros H. injection H as <- _. reflexivity.
  - intros H. apply IH in H. rewrite H. reflexivity.
Qed.
Lemma hash_parts_kind rd l : forall c pos c', hash_parts_loop rd c pos l = Ok c' -> fst c' = fst c.
Proof.
  induction l as [|q l IH]; intros c pos c'; cbn [hash_parts_loop].
  - intros H. injection H as <-. reflexivity.
  - destruct (p_id q =? 0); [apply IH|]. destruct (has_flag q _); [apply IH|].
    destruct (hash_part_loop rd _ c pos (part_size q)) as [[c1 pos1]| | |] eqn:E; try discriminate. intros H. apply IH in H.
    rewrite H. exact (hash_part_kind _ _ _ _ _ _ _ E).
Qed.
(* the digest's length is that of the header's algorithm *)
Lemma payload_digest_len sha h rd pos room d : good_hash sha -> compute_payload_hash sha h rd pos room = Ok d -> zlen d = digest_len (h_hash_kind h).
Proof.
  intros G. unfold compute_payload_hash, hash_init. destruct (hash_supported (h_hash_kind h)) eqn:Hs; [|discriminate].
  cbn [bind]. destruct (hash_parts_loop rd _ pos (h_parts h)) as [c| | |] eqn:E; try discriminate. apply hash_parts_kind in E. cbn [fst] in E.
  cbn [bind]. unfold hash_final. rewrite E, Hs. intros H. cbn [negb] in H. destruct (room <? _); [discriminate|].
  injection H as <-. apply (G _ _ Hs).
Qed.
(* what a call leaves of the payload hash field behind the digest *)
Definition tail (h : header) : bytes := zdrop (digest_len (h_hash_kind h)) (h_payload_hash h).
Lemma hash_and_write_tail sha h f p' : good_hash sha -> zlen (h_payload_hash h) = 64 -> hash_and_write sha (mkPkg h f) = (p', Ok tt) -> tail (pk_header p') = tail h.
Proof.
  intros G L. unfold hash_and_write, pkg_update_hash. cbn [pk_header pk_file].
  destruct (compute_payload_hash sha h (file_rd f) HDR_SIZE 64) as [d| | |] eqn:E; try discriminate. intros H. injection H as <-.
  apply (payload_digest_len _ _ _ _ _ _ G) in E. unfold tail, pkg_write_header. cbn [pk_header with_payload_hash h_hash_kind h_payload_hash].
  pose proof (digest_len_le (h_hash_kind h)) as Dl. unfold splice. rewrite Z.add_0_l, E. rewrite ztake_neg by lia. cbn [app].
  rewrite zdrop_app_r by lia. rewrite E, Z.sub_diag, zdrop_0. reflexivity.
Qed.
Lemma add_tail sha p es data name flags p' : good_hash sha -> holds p es -> pkg_add_file sha p data name flags = (p', Ok tt) ->
  tail (pk_header p') = tail (pk_header p).
Proof.
  intros G H. pose proof (wf_payload_hash _ (ho_wf _ _ H)) as [L _]. unfold pkg_add_file.
  destruct (add_part (pk_header p) (bpak_id name)) as [h1 [i|e| |]] eqn:Ea; try discriminate.
  assert (E1 : h_payload_hash h1 = h_payload_hash (pk_header p) /\ h_hash_kind h1 = h_hash_kind (pk_header p)).
  { unfold add_part in Ea. destruct (add_part_loop _ _) as [l r]. injection Ea as <- _. split; reflexivity. }
  destruct E1 as [E1 E2]. destruct (_ <? 0); [discriminate|]. destruct (copy_in_loop _ _ _ _ _) as [[f1 pos]| | |]; try discriminate.
  intros Hw. apply (hash_and_write_tail sha _ _ _ G) in Hw.
  - rewrite Hw. unfold tail, fill_part. destruct (nth_error (h_parts h1) i); cbn [h_payload_hash h_hash_kind with_parts]; now rewrite E1, E2.
  - unfold fill_part. destruct (nth_error (h_parts h1) i); cbn [h_payload_hash with_parts]; now rewrite E1.
Qed.
Lemma delete_tail sha p es id p' : good_hash sha -> holds p es -> pkg_delete_part sha p id false = (p', Ok tt) ->
  tail (pk_header p') = tail (pk_header p).
Proof.
  intros G H. pose proof (wf_payload_hash _ (ho_wf _ _ H)) as [L _]. unfold pkg_delete_part.
  destruct (get_part (pk_header p) id) as [i| | |]; try discriminate. destruct (nth_error (h_parts (pk_header p)) i) as [q|]; [|discriminate].
  destruct (del_part (pk_header p) i) as [h1| | |] eqn:Ed; try discriminate.
  assert (E1 : h_payload_hash h1 = h_payload_hash (pk_header p) /\ h_hash_kind h1 = h_hash_kind (pk_header p)).
  { unfold del_part in Ed. destruct (nth_error _ _); [|discriminate]. injection Ed as <-. split; reflexivity. }
  destruct E1 as [E1 E2]. destruct (shift_offsets _ _ 0) as [tl todo].
  destruct (move_down_loop _ _ _ _ _) as [f1| | |]; try discriminate.
  destruct (hash_and_write sha _) as [p1 [u| | |]] eqn:Hw; try discriminate. intros X. injection X as <-. destruct u.
  apply (hash_and_write_tail sha _ _ _ G) in Hw; [|cbn [h_payload_hash with_parts]; now rewrite E1].
  cbn [pk_header]. rewrite Hw. unfold tail. cbn [h_payload_hash h_hash_kind with_parts]. now rewrite E1, E2.
Qed.
Lemma payload_eq h h' : zlen (h_payload_hash h) = 64 -> zlen (h_payload_hash h') = 64 -> h_hash_kind h = h_hash_kind h' ->
  slice 0 (digest_len (h_hash_kind h)) (h_payload_hash h) = slice 0 (digest_len (h_hash_kind h')) (h_payload_hash h') ->
  tail h = tail h' -> h_payload_hash h = h_payload_hash h'.
Proof.
  unfold tail. intros L L' K. rewrite K, !slice_0. intros A B. rewrite <- (ztake_zdrop (digest_len (h_hash_kind h')) (h_payload_hash h)), A, B.
  apply ztake_zdrop.
Qed.
(* deleting one of two files with the same id that are the only difference
   between two packages: the packages are equal afterwards *)
Theorem delete_forgets sha p1 p2 (a : list (parth * bytes)) q1 c1 b1 q2 c2 b2 : good_hash sha ->
  holds p1 (a ++ (q1, c1) :: b1) -> holds p2 (a ++ (q2, c2) :: b2) -> p_id q1 = p_id q2 ->
  map (moved (zlen c1)) b1 = map (moved (zlen c2)) b2 ->
  hash_supported (h_hash_kind (pk_header p1)) = true ->
  same_besides_parts (pk_header p1) (pk_header p2) -> tail (pk_header p1) = tail (pk_header p2) ->
  pkg_delete_part sha p1 (p_id q1) false = pkg_delete_part sha p2 (p_id q2) false.
Proof.
  intros G H1 H2 Eid Eb Hs Sb Et.
  assert (K : h_hash_kind (pk_header p2) = h_hash_kind (pk_header p1)) by (rewrite Sb; reflexivity).
  destruct (delete_part_ok sha p1 a q1 c1 b1 false [] G H1 Hs ltac:(discriminate)) as (r1 & E1 & A1 & D1 & S1 & _).
  destruct (delete_part_ok sha p2 a q2 c2 b2 false [] G H2 ltac:(rewrite K; exact Hs) ltac:(discriminate)) as (r2 & E2 & A2 & D2 & S2 & _).
  rewrite E1, E2. rewrite Eb in A1, D1. specialize (S1 eq_refl). specialize (S2 eq_refl).
  pose proof (delete_tail sha p1 _ _ _ G H1 E1) as T1. pose proof (delete_tail sha p2 _ _ _ G H2 E2) as T2.
  assert (K1 : h_hash_kind (pk_header r1) = h_hash_kind (pk_header p1)) by (rewrite S1; reflexivity).
  assert (K2 : h_hash_kind (pk_header r2) = h_hash_kind (pk_header p2)) by (rewrite S2; reflexivity).
  assert (P : h_payload_hash (pk_header r1) = h_payload_hash (pk_header r2)).
  { apply payload_eq; try (apply (wf_payload_hash _ (ho_wf _ _ A1))); try (apply (wf_payload_hash _ (ho_wf _ _ A2))); try congruence. }
  assert (Hh : pk_header r1 = pk_header r2).
  { rewrite S1, S2, Sb, P. rewrite (ho_table _ _ A1), (ho_table _ _ A2). reflexivity. }
  assert (Hf : pk_file r1 = pk_file r2) by (rewrite (ho_file _ _ A1), (ho_file _ _ A2), Hh; reflexivity).
  destruct r1 as [x1 y1], r2 as [x2 y2]; cbn [pk_header pk_file] in *. now rewrite Hh, Hf.
Qed.
(* adding a file and deleting it again gives back the same package, byte for byte *)
Theorem add_then_delete sha p fs name data flags : good_hash sha -> pkg_inv sha p fs -> bytes_ok name -> bpak_id name <> 0 ->
  ~ In (bpak_id name) (map f_id fs) -> (length fs < 32)%nat -> 0 <= flags < 256 -> Z.testbit flags 1 = false ->
  zlen (pk_file p) + zlen data + 512 <= 2^63 ->
  exists p', pkg_add_file sha p data name flags = (p', Ok tt) /\ pkg_delete_part sha p' (bpak_id name) false = (p, Ok tt).
Proof.
  intros G I Bn Hid Hni Hl Hf Ht Hb. pose proof I as [(es & H & O & F) P V Hs M D].
  assert (Ids : map (fun e : parth * bytes => p_id (fst e)) es = map f_id fs).
  { clear - F. induction F as [|x e fs es (H1 & H2 & _) _ IH]; [reflexivity|]. cbn [map]. now rewrite IH, H2. }
  assert (Ls : length es = length fs) by (clear - F; induction F; cbn [length]; lia).
  assert (Pl : plain es).
  { unfold plain. clear - F P. induction F as [|x e fs es (H1 & H2 & H3 & _) _ IH]; [constructor|]. inversion P; subst. constructor; [now rewrite H3|auto]. }
  destruct (add_file_ok sha p es data name flags G H Pl Hs Bn Hid ltac:(rewrite Ids; exact Hni) ltac:(lia) Hf Ht Hb) as (p' & E & H' & S' & D').
  exists p'. split; [exact E|]. cbn zeta in *. set (e := (new_part p (bpak_id name) data flags, data ++ zeros (padding (zlen data)))) in *.
  pose proof (add_tail sha p es _ _ _ _ G H E) as T1.
  assert (K : h_hash_kind (pk_header p') = h_hash_kind (pk_header p)) by (rewrite S'; reflexivity).
  destruct (delete_part_ok sha p' es (fst e) (snd e) [] false [] G H' ltac:(rewrite K; exact Hs) ltac:(discriminate)) as (r & E1 & A1 & D1 & S1 & _).
  cbn [map] in A1, D1. rewrite app_nil_r in A1, D1. specialize (S1 eq_refl).
  pose proof (delete_tail sha p' _ _ _ G H' E1) as T2.
  assert (Er : r = p).
  { assert (P2 : h_payload_hash (pk_header r) = h_payload_hash (pk_header p)).
    { apply payload_eq; try (apply (wf_payload_hash _ (ho_wf _ _ A1))); try (apply (wf_payload_hash _ (ho_wf _ _ H))); [rewrite S1; exact K| |congruence].
      unfold hash_current in D1. rewrite D1, D, (files_covered_eq _ _ F). f_equal. rewrite S1. exact K. }
    assert (Hh : pk_header r = pk_header p).
    { rewrite S1, P2, (ho_table _ _ A1), <- (ho_table _ _ H), S'. destruct (pk_header p); reflexivity. }
    assert (Hff : pk_file r = pk_file p) by (rewrite (ho_file _ _ A1), (ho_file _ _ H), Hh; reflexivity).
    destruct r as [x1 y1], p as [x2 y2]; cbn [pk_header pk_file] in *. now rewrite Hh, Hff. }
  rewrite Er in E1. exact E1.
Qed.
