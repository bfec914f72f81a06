(* BaseLemmas.v -- facts about the vocabulary of Base.v *)
From Coq Require Export ZifyBool ZifyNat.
From Verif Require Export Base.
Ltac Zify.zify_post_hook ::= Z.div_mod_to_equations.

Lemma zlen_nonneg {A} (l : list A) : 0 <= zlen l.
Proof. unfold zlen; lia. Qed.
Lemma zlen_nil {A} : zlen (@nil A) = 0.
Proof. reflexivity. Qed.
Lemma zlen_cons {A} (x : A) l : zlen (x :: l) = 1 + zlen l.
Proof. unfold zlen; cbn [length]; lia. Qed.
Lemma zlen_app {A} (l1 l2 : list A) : zlen (l1 ++ l2) = zlen l1 + zlen l2.
Proof. unfold zlen; rewrite app_length; lia. Qed.
Lemma zlen_zeros n : zlen (zeros n) = Z.max 0 n.
Proof. unfold zlen, zeros; rewrite repeat_length; lia. Qed.
Lemma zlen_ztake {A} n (l : list A) : zlen (ztake n l) = Z.max 0 (Z.min n (zlen l)).
Proof. unfold zlen, ztake; rewrite firstn_length; lia. Qed.
Lemma zlen_zdrop {A} n (l : list A) : zlen (zdrop n l) = zlen l - Z.max 0 (Z.min n (zlen l)).
Proof. unfold zlen, zdrop; rewrite skipn_length; lia. Qed.
Lemma zlen_slice {A} o n (l : list A) :
  zlen (slice o n l) = Z.max 0 (Z.min n (zlen l - Z.max 0 (Z.min o (zlen l)))).
Proof. unfold slice; rewrite zlen_ztake, zlen_zdrop; lia. Qed.
Lemma zlen_slice_in {A} o n (l : list A) :
  0 <= o -> 0 <= n -> o + n <= zlen l -> zlen (slice o n l) = n.
Proof. intros; rewrite zlen_slice; lia. Qed.
Lemma zlen_map {A B} (f : A -> B) l : zlen (map f l) = zlen l.
Proof. unfold zlen; now rewrite map_length. Qed.
Lemma zlen_rev {A} (l : list A) : zlen (rev l) = zlen l.
Proof. unfold zlen; now rewrite rev_length. Qed.
Lemma zlen_0_nil {A} (l : list A) : zlen l = 0 -> l = [].
Proof. destruct l; [easy|]. rewrite zlen_cons. pose proof (zlen_nonneg l). lia. Qed.

Lemma ztake_neg {A} n (l : list A) : n <= 0 -> ztake n l = [].
Proof. intros; unfold ztake. replace (Z.to_nat n) with 0%nat by lia. reflexivity. Qed.
Lemma zdrop_neg {A} n (l : list A) : n <= 0 -> zdrop n l = l.
Proof. intros; unfold zdrop. replace (Z.to_nat n) with 0%nat by lia. reflexivity. Qed.
Lemma ztake_0 {A} (l : list A) : ztake 0 l = [].
Proof. reflexivity. Qed.
Lemma zdrop_0 {A} (l : list A) : zdrop 0 l = l.
Proof. reflexivity. Qed.
Lemma ztake_nil {A} n : ztake n (@nil A) = [].
Proof. unfold ztake; apply firstn_nil. Qed.
Lemma zdrop_nil {A} n : zdrop n (@nil A) = [].
Proof. unfold zdrop; apply skipn_nil. Qed.
Lemma ztake_all {A} n (l : list A) : zlen l <= n -> ztake n l = l.
Proof. unfold ztake, zlen; intros; apply firstn_all2; lia. Qed.
Lemma zdrop_all {A} n (l : list A) : zlen l <= n -> zdrop n l = [].
Proof. unfold zdrop, zlen; intros; apply skipn_all2; lia. Qed.
Lemma ztake_zdrop {A} n (l : list A) : ztake n l ++ zdrop n l = l.
Proof. apply firstn_skipn. Qed.

Lemma ztake_app_l {A} n (a b : list A) : n <= zlen a -> ztake n (a ++ b) = ztake n a.
Proof.
  unfold ztake, zlen; intros. rewrite firstn_app.
  replace (Z.to_nat n - length a)%nat with 0%nat by lia.
  now rewrite firstn_O, app_nil_r.
Qed.
Lemma ztake_app_r {A} n (a b : list A) : zlen a <= n -> ztake n (a ++ b) = a ++ ztake (n - zlen a) b.
Proof.
  unfold ztake, zlen; intros. rewrite firstn_app, firstn_all2 by lia.
  f_equal. f_equal. lia.
Qed.
Lemma zdrop_app_l {A} n (a b : list A) : n <= zlen a -> zdrop n (a ++ b) = zdrop n a ++ b.
Proof.
  unfold zdrop, zlen; intros. rewrite skipn_app.
  replace (Z.to_nat n - length a)%nat with 0%nat by lia. reflexivity.
Qed.
Lemma zdrop_app_r {A} n (a b : list A) : zlen a <= n -> zdrop n (a ++ b) = zdrop (n - zlen a) b.
Proof.
  unfold zdrop, zlen; intros. rewrite skipn_app, (skipn_all2 a) by lia.
  cbn. f_equal. lia.
Qed.
Lemma zdrop_zdrop {A} m n (l : list A) : 0 <= m -> 0 <= n -> zdrop m (zdrop n l) = zdrop (m + n) l.
Proof.
  intros. unfold zdrop. replace (Z.to_nat (m + n)) with (Z.to_nat m + Z.to_nat n)%nat by lia.
  generalize (Z.to_nat m) as a, (Z.to_nat n) as b. clear.
  intros a b; revert l; induction b as [|b IH]; intros l.
  - cbn. now rewrite Nat.add_0_r.
  - rewrite Nat.add_succ_r. destruct l; [now rewrite !skipn_nil|]. cbn [skipn]. apply IH.
Qed.
Lemma ztake_ztake {A} m n (l : list A) : ztake m (ztake n l) = ztake (Z.min m n) l.
Proof. unfold ztake. rewrite firstn_firstn. f_equal. lia. Qed.
Lemma zdrop_ztake {A} m n (l : list A) : 0 <= m -> zdrop m (ztake n l) = ztake (n - m) (zdrop m l).
Proof.
  intros. unfold ztake, zdrop. rewrite skipn_firstn_comm. f_equal. lia.
Qed.
Lemma ztake_plus {A} m n (l : list A) : 0 <= m -> 0 <= n ->
  ztake (m + n) l = ztake m l ++ ztake n (zdrop m l).
Proof.
  intros Hm Hn. rewrite <- (ztake_zdrop m l) at 1.
  destruct (Z.le_gt_cases m (zlen l)) as [Hl|Hl].
  - assert (E : zlen (ztake m l) = m) by (rewrite zlen_ztake; lia).
    rewrite ztake_app_r by lia. f_equal. f_equal. lia.
  - rewrite (zdrop_all m l) by lia. rewrite ztake_nil, !app_nil_r.
    rewrite ztake_ztake. f_equal. lia.
Qed.

Lemma slice_0 {A} n (l : list A) : slice 0 n l = ztake n l.
Proof. reflexivity. Qed.
Lemma slice_neg_len {A} o n (l : list A) : n <= 0 -> slice o n l = [].
Proof. intros; unfold slice; now apply ztake_neg. Qed.
Lemma slice_slice {A} o n o' n' (l : list A) :
  0 <= o -> 0 <= o' -> o + n <= n' ->
  slice o n (slice o' n' l) = slice (o + o') n l.
Proof.
  intros. unfold slice. rewrite zdrop_ztake, zdrop_zdrop, ztake_ztake by lia.
  f_equal. lia.
Qed.
Lemma slice_app_l {A} o n (a b : list A) :
  0 <= o -> o + n <= zlen a -> slice o n (a ++ b) = slice o n a.
Proof.
  intros. unfold slice. destruct (Z.le_gt_cases n 0); [now rewrite !ztake_neg|].
  rewrite zdrop_app_l by lia. rewrite ztake_app_l; auto. rewrite zlen_zdrop. lia.
Qed.
Lemma slice_app_r {A} o n (a b : list A) :
  zlen a <= o -> slice o n (a ++ b) = slice (o - zlen a) n b.
Proof. intros. unfold slice. now rewrite zdrop_app_r by lia. Qed.
Lemma slice_app_exact {A} o n (a b c : list A) :
  o = zlen a -> n = zlen b -> slice o n (a ++ b ++ c) = b.
Proof.
  intros -> ->. rewrite slice_app_r by lia.
  replace (zlen a - zlen a) with 0 by lia. rewrite slice_0, ztake_app_l by lia.
  now apply ztake_all.
Qed.
Lemma slice_app_exact_end {A} o n (a b : list A) :
  o = zlen a -> zlen b <= n -> slice o n (a ++ b) = b.
Proof.
  intros -> Hn. rewrite slice_app_r by lia.
  replace (zlen a - zlen a) with 0 by lia. rewrite slice_0.
  now apply ztake_all.
Qed.
Lemma slice_split {A} o n m (l : list A) : 0 <= o -> 0 <= n -> 0 <= m ->
  slice o (n + m) l = slice o n l ++ slice (o + n) m l.
Proof.
  intros. unfold slice. rewrite ztake_plus by lia. rewrite zdrop_zdrop by lia.
  do 3 f_equal. lia.
Qed.
Lemma slice_full {A} n (l : list A) : zlen l <= n -> slice 0 n l = l.
Proof. intros. rewrite slice_0. now apply ztake_all. Qed.
Lemma slice_past {A} o n (l : list A) : zlen l <= o -> slice o n l = [].
Proof. intros. unfold slice. rewrite zdrop_all by lia. apply ztake_nil. Qed.

Lemma zlen_splice {A} o (d l : list A) :
  0 <= o -> o + zlen d <= zlen l -> zlen (splice o d l) = zlen l.
Proof.
  intros. unfold splice. pose proof (zlen_nonneg d).
  rewrite !zlen_app, zlen_ztake, zlen_zdrop. lia.
Qed.
Lemma slice_splice_same {A} o (d l : list A) :
  0 <= o -> o + zlen d <= zlen l -> slice o (zlen d) (splice o d l) = d.
Proof.
  intros. unfold splice. pose proof (zlen_nonneg d).
  apply slice_app_exact; auto. rewrite zlen_ztake. lia.
Qed.
Lemma slice_splice_before {A} o n o' (d l : list A) :
  0 <= o -> o + n <= o' -> o' <= zlen l -> slice o n (splice o' d l) = slice o n l.
Proof.
  intros. unfold splice. destruct (Z.le_gt_cases n 0); [now rewrite !slice_neg_len|].
  rewrite slice_app_l by (rewrite ?zlen_ztake; lia).
  unfold slice. rewrite zdrop_ztake, ztake_ztake by lia. f_equal. lia.
Qed.
Lemma slice_splice_after {A} o n o' (d l : list A) :
  0 <= o' -> o' + zlen d <= o -> o' <= zlen l ->
  slice o n (splice o' d l) = slice o n l.
Proof.
  intros. unfold splice. pose proof (zlen_nonneg d).
  rewrite slice_app_r by (rewrite zlen_ztake; lia).
  rewrite slice_app_r by (rewrite zlen_ztake; lia).
  rewrite zlen_ztake. unfold slice. rewrite zdrop_zdrop by lia. f_equal. f_equal. lia.
Qed.
Lemma splice_nil {A} o (l : list A) : splice o [] l = l.
Proof. unfold splice. rewrite zlen_nil, Z.add_0_r. cbn. apply ztake_zdrop. Qed.

Lemma firstn_repeat' {A} (x : A) m n : (m <= n)%nat -> firstn m (repeat x n) = repeat x m.
Proof. revert n; induction m; intros [|n] H; cbn; try easy; try lia. f_equal. apply IHm. lia. Qed.
Lemma skipn_repeat' {A} (x : A) m n : skipn m (repeat x n) = repeat x (n - m).
Proof. revert n; induction m; intros [|n]; cbn; auto. Qed.
Lemma ztake_zeros m n : m <= n -> ztake m (zeros n) = zeros m.
Proof. intros. unfold ztake, zeros. apply firstn_repeat'. lia. Qed.
Lemma zdrop_zeros m n : 0 <= m -> zdrop m (zeros n) = zeros (n - m).
Proof. intros. unfold zdrop, zeros. rewrite skipn_repeat'. f_equal. lia. Qed.
Lemma slice_zeros o m n : 0 <= o -> o + m <= n -> slice o m (zeros n) = zeros m.
Proof. intros. unfold slice. rewrite zdrop_zeros, ztake_zeros by lia. reflexivity. Qed.
Lemma zeros_app a b : 0 <= a -> 0 <= b -> zeros a ++ zeros b = zeros (a + b).
Proof. intros. unfold zeros. rewrite <- repeat_app. f_equal. lia. Qed.
Lemma zeros_neg n : n <= 0 -> zeros n = [].
Proof. intros. unfold zeros. replace (Z.to_nat n) with 0%nat by lia. reflexivity. Qed.

(* ---- bytes_ok ---- *)
Lemma bytes_ok_nil : bytes_ok [].
Proof. constructor. Qed.
Lemma bytes_ok_app a b : bytes_ok (a ++ b) <-> bytes_ok a /\ bytes_ok b.
Proof. apply Forall_app. Qed.
Lemma bytes_ok_cons a b : bytes_ok (a :: b) <-> byte_ok a /\ bytes_ok b.
Proof. apply Forall_cons_iff. Qed.
Lemma bytes_ok_zeros n : bytes_ok (zeros n).
Proof. unfold zeros. apply Forall_forall. intros x Hx. apply repeat_spec in Hx. subst; red; lia. Qed.
Lemma Forall_firstn' {A} (P : A -> Prop) n l : Forall P l -> Forall P (firstn n l).
Proof. intros H. rewrite <- (firstn_skipn n l) in H. now apply Forall_app in H. Qed.
Lemma Forall_skipn' {A} (P : A -> Prop) n l : Forall P l -> Forall P (skipn n l).
Proof. intros H. rewrite <- (firstn_skipn n l) in H. now apply Forall_app in H. Qed.
Lemma bytes_ok_ztake n l : bytes_ok l -> bytes_ok (ztake n l).
Proof. apply Forall_firstn'. Qed.
Lemma bytes_ok_zdrop n l : bytes_ok l -> bytes_ok (zdrop n l).
Proof. apply Forall_skipn'. Qed.
Lemma bytes_ok_slice o n l : bytes_ok l -> bytes_ok (slice o n l).
Proof. intros. now apply bytes_ok_ztake, bytes_ok_zdrop. Qed.
Lemma bytes_ok_splice o d l : bytes_ok d -> bytes_ok l -> bytes_ok (splice o d l).
Proof.
  intros. unfold splice. rewrite !bytes_ok_app.
  auto using bytes_ok_ztake, bytes_ok_zdrop.
Qed.

(* ---- little endian ---- *)
Lemma length_le n v : length (le n v) = n.
Proof. revert v; induction n; intros; cbn [le length]; auto. Qed.
Lemma zlen_le n v : zlen (le n v) = Z.of_nat n.
Proof. unfold zlen; now rewrite length_le. Qed.
Lemma bytes_ok_le n v : bytes_ok (le n v).
Proof.
  revert v; induction n; intros; cbn [le]; constructor; [red; lia | apply IHn].
Qed.
Lemma unle_le n v : 0 <= v < 256 ^ Z.of_nat n -> unle (le n v) = v.
Proof.
  revert v; induction n as [|n IH]; intros v Hv.
  - cbn in *. lia.
  - cbn [le unle]. rewrite IH; [lia|].
    rewrite Nat2Z.inj_succ, Z.pow_succ_r in Hv by lia.
    split; [lia|]. apply Z.div_lt_upper_bound; lia.
Qed.
Lemma unle_range l : bytes_ok l -> 0 <= unle l < 256 ^ zlen l.
Proof.
  induction l as [|b r IH]; intros H.
  - cbn. lia.
  - apply bytes_ok_cons in H as [Hb Hr]. specialize (IH Hr).
    rewrite zlen_cons, Z.pow_add_r by (pose proof (zlen_nonneg r); lia).
    cbn [unle]. unfold byte_ok in Hb. change (256 ^ 1) with 256. nia.
Qed.
Lemma le_unle l : bytes_ok l -> le (length l) (unle l) = l.
Proof.
  induction l as [|b r IH]; intros H; [reflexivity|].
  apply bytes_ok_cons in H as [Hb Hr]. unfold byte_ok in Hb. cbn [length le unle].
  replace ((b + 256 * unle r) mod 256) with b by lia.
  replace ((b + 256 * unle r) / 256) with (unle r) by lia.
  now rewrite IH.
Qed.
Lemma le_unle' n l : bytes_ok l -> zlen l = Z.of_nat n -> le n (unle l) = l.
Proof. intros H E. replace n with (length l) by (unfold zlen in E; lia). now apply le_unle. Qed.

(* ---- list_upd ---- *)
Lemma length_list_upd {A} i (x : A) l : length (list_upd i x l) = length l.
Proof. revert i; induction l; destruct i; cbn; auto. Qed.
Lemma nth_error_list_upd_same {A} i (x : A) l :
  (i < length l)%nat -> nth_error (list_upd i x l) i = Some x.
Proof. revert i; induction l; destruct i; cbn; intros; try lia; auto. apply IHl; lia. Qed.
Lemma nth_error_list_upd_other {A} i j (x : A) l :
  i <> j -> nth_error (list_upd i x l) j = nth_error l j.
Proof. revert i j; induction l; destruct i, j; cbn; intros; try easy. apply IHl; lia. Qed.
Lemma list_upd_app {A} i (x : A) a b :
  list_upd i x (a ++ b) =
  if (i <? length a)%nat then list_upd i x a ++ b else a ++ list_upd (i - length a) x b.
Proof.
  revert i; induction a as [|y a IH]; intros i; cbn [app length].
  - destruct (Nat.ltb_spec i 0); [lia|]. now rewrite Nat.sub_0_r.
  - destruct i as [|i]; cbn [list_upd]; [reflexivity|].
    rewrite IH. destruct (Nat.ltb_spec i (length a)), (Nat.ltb_spec (S i) (S (length a))); try lia; auto.
Qed.
Lemma list_upd_middle {A} (x y : A) a b :
  list_upd (length a) x (a ++ y :: b) = a ++ x :: b.
Proof.
  rewrite list_upd_app, Nat.ltb_irrefl, Nat.sub_diag. reflexivity.
Qed.
Lemma Forall_list_upd {A} (P : A -> Prop) i x l :
  Forall P l -> P x -> Forall P (list_upd i x l).
Proof.
  intros H Hx; revert i; induction H; destruct i; cbn; constructor; auto.
Qed.
Lemma nth_error_split' {A} (l : list A) i x :
  nth_error l i = Some x -> exists a b, l = a ++ x :: b /\ length a = i.
Proof. apply nth_error_split. Qed.

(* ---- bytes_eqb ---- *)
Lemma bytes_eqb_eq a b : bytes_eqb a b = true <-> a = b.
Proof.
  revert b; induction a as [|x a IH]; destruct b as [|y b]; cbn; try easy.
  rewrite andb_true_iff, IH, Z.eqb_eq. split; [intros [-> ->]|intros [= -> ->]]; auto.
Qed.
Lemma bytes_eqb_refl a : bytes_eqb a a = true.
Proof. now apply bytes_eqb_eq. Qed.
Lemma bytes_eqb_neq a b : bytes_eqb a b = false <-> a <> b.
Proof. rewrite <- bytes_eqb_eq. destruct (bytes_eqb a b); split; congruence. Qed.

(* ---- files ---- *)
Lemma fwrite_at_in f o d : 0 <= o -> o <= zlen f -> fwrite_at f o d = splice o d f.
Proof.
  intros. unfold fwrite_at. destruct (Z.eqb_spec (zlen d) 0) as [E|E].
  - apply zlen_0_nil in E as ->. now rewrite splice_nil.
  - destruct (Z.leb_spec o (zlen f)); [reflexivity|lia].
Qed.
Lemma fwrite_at_end f o d : o = zlen f -> fwrite_at f o d = f ++ d.
Proof.
  intros ->. pose proof (zlen_nonneg f). rewrite fwrite_at_in by lia. unfold splice.
  pose proof (zlen_nonneg d).
  rewrite ztake_all, zdrop_all by lia. now rewrite app_nil_r.
Qed.

(* [zs] normalises lengths *)
Lemma zlen_repeat {A} (x : A) n : zlen (repeat x n) = Z.of_nat n.
Proof. unfold zlen. now rewrite repeat_length. Qed.
#[export] Hint Rewrite @zlen_app @zlen_nil @zlen_cons @zlen_zeros @zlen_ztake @zlen_zdrop
  @zlen_slice @zlen_map @zlen_rev @zlen_repeat zlen_le : zlen.
Ltac zl := autorewrite with zlen in *.
Ltac zlia := zl; lia.

Lemma list_nth_error_ext {A} (a b : list A) :
  (forall i, nth_error a i = nth_error b i) -> a = b.
Proof.
  revert b; induction a as [|x a IH]; destruct b as [|y b]; intros H; auto.
  - specialize (H 0%nat); discriminate.
  - specialize (H 0%nat); discriminate.
  - pose proof (H 0%nat) as H0. cbn in H0. injection H0 as ->. f_equal.
    apply IH. intros i. exact (H (S i)).
Qed.
