(* PropertiesNoPart.v -- C27: deleting the part number 0, which no part has.
   Python: package.get_part(0) finds an unused entry of the table (lib/bpak.c:
   bpak_get_part), its delete() calls bpak_pkg_delete_part(pkg, 0, true) *)
From Verif Require Import BaseLemmas HeaderModel HeaderSpec HashModel VerifyModel PkgModel PkgApi MerkleApi.

Definition last_ref (l : list metah) : Z := m_ref (last l zero_meta).
Lemma del_meta_loop_last : forall (rest : list metah) adj md l md', del_meta_loop adj rest md = Ok (l, md') ->
  last_ref rest = 0 -> length l = S (length rest) /\ last_ref l = 0.
Proof.
  induction rest as [|nm rest IH]; intros adj md l md'; cbn [del_meta_loop]; [discriminate|].
  destruct (m_id nm =? 0).
  - intros [= <- <-] R. split; [reflexivity|]. destruct rest as [|a r]; [reflexivity|]. unfold last_ref in *. cbn [last] in *. exact R.
  - destruct (shift_metadata _ _ _ _) as [md1| | |]; cbn [bind]; try discriminate.
    destruct (del_meta_loop adj rest md1) as [[l2 md2]| | |] eqn:E; cbn [bind]; try discriminate. intros [= <- <-] R.
    assert (R2 : last_ref rest = 0). { destruct rest; [reflexivity|]. unfold last_ref in *. cbn [last] in *. exact R. }
    destruct (IH _ _ _ _ E R2) as [A B]. split; [cbn; lia|]. destruct l2; [cbn in A; lia|]. unfold last_ref in *. cbn [last] in *. exact B.
Qed.
Lemma last_skipn : forall (l : list metah) n, (n < length l)%nat -> last (skipn n l) zero_meta = last l zero_meta.
Proof.
  induction l as [|a l IH]; intros n H; cbn in H; [lia|]. destruct n as [|n]; [reflexivity|]. cbn [skipn]. rewrite IH by lia.
  destruct l; [cbn in H; lia | reflexivity].
Qed.
Lemma last_app_right : forall (a b : list metah), b <> [] -> last (a ++ b) zero_meta = last b zero_meta.
Proof.
  induction a as [|x a IH]; intros b N; [reflexivity|]. cbn [app]. destruct (a ++ b) as [|y r] eqn:E.
  - apply app_eq_nil in E as [_ E]. easy.
  - change (last (x :: y :: r) zero_meta) with (last (y :: r) zero_meta). rewrite <- E. apply IH, N.
Qed.
Lemma skipn_nth_one {A} i : forall (l : list A) x, nth_error l i = Some x -> skipn i l = x :: skipn (S i) l.
Proof. induction i as [|i IH]; intros [|y l] x E; cbn in E; try discriminate; [now injection E as -> | exact (IH l x E)]. Qed.
(* the loop never comes to its end *)
Lemma never_ends : forall fuel i h h', length (h_meta h) = 32%nat -> last_ref (h_meta h) = 0 -> (i < 32)%nat ->
  remove_meta_loop (fun m => m_ref m =? 0) fuel i h <> Ok h'.
Proof.
  induction fuel as [|k IH]; intros i h h' L R I; cbn [remove_meta_loop]; [discriminate|].
  unfold MAX_META. destruct (Nat.eqb_spec i 32); [lia|]. destruct (nth_error (h_meta h) i) as [m|] eqn:E; [|discriminate].
  destruct (Z.eqb_spec (m_ref m) 0) as [Z0|Z0].
  - unfold del_meta. rewrite E. destruct (del_meta_loop _ _ _) as [[l md]| | |] eqn:D; cbn [bind]; try discriminate.
    destruct (Nat.eq_dec i 31) as [->|N31].
    { rewrite skipn_all2 in D by lia. discriminate. }
    destruct (del_meta_loop_last _ _ _ _ _ D) as [A B].
    { unfold last_ref. rewrite last_skipn by lia. exact R. }
    rewrite skipn_length in A. apply IH; [| |exact I]; cbn.
    + rewrite app_length, firstn_length. lia.
    + unfold last_ref. rewrite last_app_right; [exact B|]. destruct l; [cbn in A; lia | discriminate].
  - apply IH; [exact L | exact R|]. destruct (Nat.eq_dec i 31) as [->|]; [|lia]. exfalso. apply Z0. unfold last_ref in R. rewrite <- R.
    assert (X : last (skipn 31 (h_meta h)) zero_meta = m).
    { rewrite (skipn_nth_one 31 (h_meta h) m E). rewrite skipn_all2 by lia. reflexivity. }
    rewrite last_skipn in X by lia. now rewrite X.
Qed.

Lemma loop_no_error sel : forall fuel i h e, remove_meta_loop sel fuel i h <> Err e.
Proof.
  assert (D : forall rest adj md e, del_meta_loop adj rest md <> Err e).
  { induction rest as [|nm rest IH]; intros adj md e; cbn [del_meta_loop]; [discriminate|]. destruct (m_id nm =? 0); [discriminate|].
    unfold shift_metadata. destruct (_ || _); [discriminate|]. cbn [bind]. pose proof (IH adj) as X.
    match goal with |- context [del_meta_loop adj rest ?m] => specialize (X m e); destruct (del_meta_loop adj rest m) as [[l md2]| | |] end; cbn [bind]; congruence. }
  induction fuel as [|k IH]; intros i h e; cbn [remove_meta_loop]; [discriminate|]. destruct (_ =? MAX_META)%nat; [discriminate|].
  destruct (nth_error (h_meta h) i) as [m|]; [|discriminate]. destruct (sel m); [|apply IH]. unfold del_meta. destruct (nth_error _ _) as [m2|]; [|discriminate].
  match goal with |- context [del_meta_loop ?a ?b ?c] => pose proof (D b a c e) as X; destruct (del_meta_loop a b c) as [[l md2]| | |] end; cbn [bind]; try congruence. apply IH.
Qed.
(* whatever the number of steps (fuel) the loop is given *)
Theorem C27_part_zero_hangs : forall sha p, wf_header (pk_header p) -> In 0 (map p_id (h_parts (pk_header p))) ->
  last_ref (h_meta (pk_header p)) = 0 ->
  (forall fuel h', remove_meta_loop (fun m => m_ref m =? 0) fuel 0 (pk_header p) <> Ok h') /\
  pk_file (fst (pkg_delete_part sha p 0 true)) = pk_file p /\
  (snd (pkg_delete_part sha p 0 true) = Stuck \/ snd (pkg_delete_part sha p 0 true) = UB).
Proof.
  intros sha p W I R. pose proof (proj1 (wf_metas _ W)) as L.
  split; [intros fuel h'; apply never_ends; [exact L | exact R | lia]|].
  unfold pkg_delete_part. destruct (get_part (pk_header p) 0) as [i|e| |] eqn:G; cbn [fst snd].
  - destruct (nth_error (h_parts (pk_header p)) i) as [q|] eqn:N; [|now split; [|right]]. unfold del_part. rewrite N.
    destruct (shift_offsets _ _ _) as [tail todo]. set (h2 := with_parts _ (_ ++ tail)).
    pose proof (never_ends 100 0 h2) as E. assert (X : forall h', remove_meta_loop (fun m => m_ref m =? 0) 100 0 h2 <> Ok h').
    { intros h'. apply E; [exact L | exact R | lia]. }
    assert (Y : forall e, remove_meta_loop (fun m => m_ref m =? 0) 100 0 h2 <> Err e) by (intros e; apply loop_no_error).
    destruct (remove_meta_loop _ 100 0 h2) as [h3|e| |]; [now destruct (X h3) | now destruct (Y e) | split; [reflexivity | now right] | split; [reflexivity | now left]].
  - exfalso. unfold get_part in G. destruct (find_index _ _) eqn:F; [discriminate|]. apply in_map_iff in I as (q & Z & I).
    clear -F Z I. induction (h_parts (pk_header p)) as [|a r IH]; [destruct I|]. cbn [find_index] in F. destruct (Z.eqb_spec (p_id a) 0); [discriminate|].
    destruct (find_index (fun p0 => p_id p0 =? 0) r) eqn:F2; [discriminate|]. destruct I as [->|I]; [congruence|]. now apply IH.
  - split; [reflexivity | now right].
  - split; [reflexivity | now left].
Qed.
Print Assumptions C27_part_zero_hangs.
(* non-vacuity: a package as created *)
Example C27_part_zero_instance : let p := mkPkg (fresh_header toy_sha) (enc_header (fresh_header toy_sha)) in
  wf_header (pk_header p) /\ In 0 (map p_id (h_parts (pk_header p))) /\ last_ref (h_meta (pk_header p)) = 0.
Proof.
  intros p. split; [exact (fresh_wf toy_sha toy_sha_good)|]. split; [left; reflexivity | reflexivity].
Qed.
