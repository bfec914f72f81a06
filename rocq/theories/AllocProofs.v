From Verif Require Import AllocModel AllocSpec.

Lemma ends_ret {A} (a : A) h (Q : A -> held -> Prop) : Q a h -> ends (ret a) h Q.
Proof. intros H o s S <-. exists a, s. auto. Qed.
Lemma ends_bind {A B} (m : M A) (k : A -> M B) h Q : ends m h (fun a h' => ends (k a) h' Q) -> ends (bind m k) h Q.
Proof.
  intros H o s S E. destruct (H o s S E) as (a & s1 & R & S1 & H1). destruct (H1 o s1 S1 eq_refl) as (b & s2 & R2 & S2 & P).
  exists b, s2. unfold bind. rewrite R. auto.
Qed.
Lemma ends_mono {A} (m : M A) h (P Q : A -> held -> Prop) : ends m h P -> (forall a h', P a h' -> Q a h') -> ends m h Q.
Proof. intros H I o s S E. destruct (H o s S E) as (a & s1 & R & S1 & H1). exists a, s1. auto. Qed.
Lemma ends_call {A} (m : M A) h (P Q : A -> held -> Prop) :
  ends m h P -> (forall a h', NoDup (map fst h') -> P a h' -> Q a h') -> ends m h Q.
Proof. intros H I o s S E. destruct (H o s S E) as (a & s1 & R & S1 & H1). exists a, s1. split; [exact R|]. split; [exact S1|]. apply I; [apply S1 | exact H1]. Qed.
Lemma ends_ask h (Q : nat -> held -> Prop) : (forall n, Q n h) -> ends ask h Q.
Proof. intros H o s S <-. eexists _, _. split; [reflexivity|]. split; [exact S | apply H]. Qed.
Lemma ends_fresh k h (Q : nat -> held -> Prop) : (forall i, ~ In i (map fst h) -> Q i ((i, k) :: h)) -> ends (fresh k) h Q.
Proof.
  intros H o s [N F] <-. rewrite Forall_forall in F.
  assert (X : ~ In (st_next s) (map fst (st_held s))). { intros I. apply in_map_iff in I as (x & E & I). specialize (F x I). lia. }
  eexists _, _. split; [reflexivity|]. split; [| apply H, X]. split; cbn.
  - constructor; assumption.
  - constructor; [cbn; lia|]. apply Forall_forall. intros x I. specialize (F x I). lia.
Qed.
Lemma drop_sub i h x : In x (drop i h) -> In x h.
Proof. induction h as [|[j k] r IH]; cbn; [easy|]. destruct (i =? j); cbn; tauto. Qed.
Lemma drop_nodup i h : NoDup (map fst h) -> NoDup (map fst (drop i h)).
Proof.
  induction h as [|[j k] r IH]; cbn; intros H; [constructor|]. inversion H; subst. destruct (i =? j); [assumption|].
  cbn. constructor; [|auto]. intros I. apply in_map_iff in I as (x & <- & I). apply drop_sub in I. apply H2, in_map, I.
Qed.
Lemma kind_eqb_refl k : kind_eqb k k = true.
Proof. destruct k as [[]| | | | |]; reflexivity. Qed.
Lemma ends_release k i h (Q : unit -> held -> Prop) : lookup i h = Some k -> Q tt (drop i h) -> ends (release k i) h Q.
Proof.
  intros L H o s [N F] <-. unfold release. rewrite L, kind_eqb_refl. eexists _, _. split; [reflexivity|]. split; [|exact H].
  split; cbn; [apply drop_nodup, N|]. rewrite Forall_forall in *. intros x I. apply F. eapply drop_sub, I.
Qed.
Lemma ends_use i h (Q : unit -> held -> Prop) : (exists k, lookup i h = Some k) -> Q tt h -> ends (use (Some i)) h Q.
Proof. intros [k L] H o s S <-. unfold use. rewrite L. exists tt, s. auto. Qed.
Lemma ends_steps {A} n (ok : M A) bad h Q : ends ok h Q -> (forall e, e <> 0 -> ends (bad e) h Q) -> ends (steps n ok bad) h Q.
Proof.
  intros O B. induction n as [|n IH]; cbn [steps]; [exact O|]. unfold step. apply ends_bind, ends_ask. intros e.
  destruct (Nat.eqb_spec e 0); [exact IH | apply B; assumption].
Qed.
Lemma ends_times n body h : ends body h (fun _ h' => h' = h) -> ends (times n body) h (fun _ h' => h' = h).
Proof.
  intros B. induction n as [|n IH]; cbn [times]; [apply ends_ret; reflexivity|]. apply ends_bind. eapply ends_mono; [exact B|].
  intros rc h' ->. cbn. destruct (rc =? 0); [exact IH | apply ends_ret; reflexivity].
Qed.

Lemma lookup_new i k h : lookup i ((i, k) :: h) = Some k.
Proof. cbn. now rewrite Nat.eqb_refl. Qed.
Lemma lookup_old i j k h k' : ~ In j (map fst h) -> lookup i h = Some k' -> lookup i ((j, k) :: h) = Some k'.
Proof.
  intros N L. cbn. destruct (Nat.eqb_spec i j); [|exact L]. subst. exfalso. apply N. clear N. induction h as [|[a b] r IH]; cbn in *; [discriminate|].
  destruct (Nat.eqb_spec j a); [left; congruence | right; auto].
Qed.
Lemma drop_new i k h : drop i ((i, k) :: h) = h.
Proof. cbn. now rewrite Nat.eqb_refl. Qed.
Lemma drop_old i j k h k' : ~ In j (map fst h) -> lookup i h = Some k' -> drop i ((j, k) :: h) = (j, k) :: drop i h.
Proof.
  intros N L. cbn. destruct (Nat.eqb_spec i j); [|reflexivity]. subst. exfalso. apply N. clear N. induction h as [|[a b] r IH]; cbn in *; [discriminate|].
  destruct (Nat.eqb_spec j a); [left; congruence | right; auto].
Qed.
Ltac new := solve [eassumption | match goal with H : ~ In ?j _ |- ~ In ?j _ => intros ?; apply H; cbn [map fst In] in *; tauto end].
Ltac look := solve [repeat first [eassumption | apply lookup_new | eapply lookup_old; [new|]]].
Ltac dropped := repeat first [rewrite drop_new | erewrite drop_old; [| new | look]].
Lemma ends_step {A} (ok : M A) bad h Q : ends ok h Q -> (forall e, e <> 0 -> ends (bad e) h Q) -> ends (step ok bad) h Q.
Proof. exact (ends_steps 1 ok bad h Q). Qed.
(* a call inside another one *)
Lemma ends_calls {A B} (m : M A) (P : A -> held -> Prop) (k : A -> M B) h Q :
  ends m h P -> (forall a h', P a h' -> ends (k a) h' Q) -> ends (bind m k) h Q.
Proof. intros H K. apply ends_bind. eapply ends_mono; [exact H | exact K]. Qed.
(* one step of a call *)
Ltac new_ptr := match goal with H : exists i, _ /\ _ |- _ => destruct H as (? & ? & ?) end; subst.
Ltac solve_post := cbn beta iota delta [fst snd Nat.eqb]; dropped;
  first [ reflexivity | eassumption | congruence
        | solve [eexists; split; reflexivity]
        | match goal with |- context [?n =? 0] => destruct (Nat.eqb_spec n 0); first [contradiction | reflexivity | congruence | solve [eexists; split; reflexivity]] end ].
Ltac al1 :=
  cbn beta iota zeta delta [fst snd];
  dropped;
  match goal with
  | H : fail = 0 |- _ => discriminate H
  | |- ends (bind (bind ?m ?k) ?k2) _ _ => change (ends (bind m (fun x => bind (k x) k2)) _ _)
  | |- ends (bind _ _) _ _ => apply ends_bind
  | |- ends (steps _ _ _) _ _ => apply ends_steps; [| intros ? ?]
  | |- ends (step _ _) _ _ => apply ends_step; [| intros ? ?]
  | |- ends (ret _) _ _ => apply ends_ret
  | |- ends ask _ _ => apply ends_ask; intro
  | |- ends (fresh _) _ _ => apply ends_fresh; intros ? ?
  | |- ends (release _ _) _ _ => eapply ends_release; [look |]
  | |- ends (use (Some _)) _ _ => apply ends_use; [eexists; look |]
  | |- ends (acquire _) _ _ => unfold acquire
  | |- ends (close _ (Some _)) _ _ => unfold close
  | |- ends (pkg_close _) _ _ => unfold pkg_close
  | |- ends (bpak_free _ _) _ _ => unfold bpak_free, release_mem
  | |- ends (free _) _ _ => unfold free, release_mem
  | |- ends (bpak_calloc _) _ _ => unfold bpak_calloc, alloc; try match goal with H : se_oom _ = false |- _ => rewrite H end
  | |- ends (malloc _) _ _ => unfold malloc, alloc; try match goal with H : se_oom _ = false |- _ => rewrite H end
  | |- ends (file_op _) _ _ => unfold file_op
  | |- ends (if ?n =? 0 then _ else _) _ _ => destruct (Nat.eqb_spec n 0); subst
  | |- ends (if ?b then _ else _) _ _ => destruct b eqn:?
  | |- ends (match ?x with _ => _ end) _ _ => destruct x eqn:?
  end.
Ltac al := repeat al1; try solve_post.

Lemma open_gives : gives KFile pkg_open.
Proof. unfold gives, pkg_open. intros h. al. Qed.
Section Setup.
Variable c : setup.
Lemma parse_gives : gives (KMem (se_user c)) (parse_public_key c).
Proof. unfold gives, parse_public_key. intros h. al. Qed.
Lemma private_gives : se_mbed3 c = false -> gives (KMem (se_user c)) (load_private_key c).
Proof. unfold gives, load_private_key. intros ME h. rewrite ME. al. Qed.
Lemma add_file_balanced : balanced_on add_file.
Proof. unfold balanced_on, add_file. intros h p (i & -> & L). al. Qed.
Lemma extract_balanced b : balanced_on (fun p => extract_file p b).
Proof. unfold balanced_on, extract_file. intros h p (i & -> & L). al. Qed.
Lemma file_op_balanced : balanced_on file_op.
Proof. unfold balanced_on. intros h p (i & -> & L). al. Qed.
Lemma merkle_balanced : se_oom c = false -> balanced_on (add_file_with_merkle_tree c).
Proof.
  unfold balanced_on, add_file_with_merkle_tree. intros NO h p (i & -> & L). apply ends_step; [|intros; al].
  eapply ends_calls; [apply add_file_balanced; exists i; auto | intros rc h' ->].
  unfold bpak_calloc, alloc. rewrite NO. al.
Qed.

(* the calls that use the ones above *)
Lemma holds_new k i h : holds k (Some i) ((i, k) :: h).
Proof. exists i. split; [reflexivity | apply lookup_new]. Qed.
Ltac given P rc := cbn [fst snd] in P; destruct (Nat.eqb_spec rc 0); [destruct P as (? & ? & ?); subst | subst].
Ltac new_one D := cbn [map fst] in D; apply NoDup_cons_iff in D as [D _].
Ltac call_gives L := eapply ends_call; [apply L | cbv beta; let rc := fresh "rc" in let p := fresh "p" in let P := fresh "P" in let D := fresh "D" in
  intros [rc p] ? D P; given P rc; [new_one D | clear D]].
Ltac call_on L := eapply ends_mono; [apply L; eexists; split; [reflexivity | look] | cbv beta; intros ? ? ->].
Lemma sign_balanced : se_mbed3 c = false -> balanced_on (pkg_sign c).
Proof.
  unfold balanced_on, pkg_sign. intros ME h p (i & -> & L). al. call_gives (private_gives ME); al.
Qed.
Lemma keystore_gives : gives (KMem (se_user c)) (keystore_load_key c).
Proof.
  unfold gives, keystore_load_key. intros h. al. call_gives open_gives; al. call_gives parse_gives; al.
Qed.
(* bsdiff with the compressions that need no liblzma *)
Definition plain (k : compression) : Prop := k <> CLzma.
Lemma transport_bsdiff_balanced k : plain k -> balanced (transport_bsdiff c k).
Proof.
  unfold balanced, transport_bsdiff, bsdiff_init, bsdiff, bsdiff_free. intros N h.
  destruct k; [| | now destruct N]; unfold compressor_init, compressor_free; al.
Qed.
Lemma encode_balanced ks fpi fpo fpr h : Forall plain ks -> holds KFile fpi h -> holds KFile fpo h -> fpr = None \/ holds KFile fpr h ->
  ends (transport_encode c ks fpi fpo fpr) h (fun _ h' => h' = h).
Proof.
  unfold transport_encode. intros N (i & -> & Li) (o & -> & Lo) R.
  assert (T : forall n, ends (times n (transport_part c ks)) h (fun _ h' => h' = h)).
  { intros n. apply ends_times. unfold transport_part. apply ends_bind, ends_ask. intros a. destruct (nth_error ks a) as [k|] eqn:E; al.
    eapply ends_mono; [apply transport_bsdiff_balanced | auto]. rewrite Forall_forall in N. eapply N, nth_error_In, E. }
  assert (U : ends (steps 3 (n <- ask ;; rc <- times n (transport_part c ks) ;; if rc =? 0 then ask else ret rc) (fun n => ret n)) h (fun _ h' => h' = h)).
  { al; eapply ends_mono; try apply T; intros rc h' ->; al. }
  al1. al1. al1. al1. destruct R as [-> | (r & -> & Lr)]; al1; al1; exact U.
Qed.

Lemma decode_balanced ks fpi fpo fpr h : Forall plain ks -> holds KFile fpi h -> holds KFile fpo h -> fpr = None \/ holds KFile fpr h ->
  ends (transport_decode c ks fpi fpo fpr) h (fun _ h' => h' = h).
Proof.
  unfold transport_decode. intros N (i & -> & Li) (o & -> & Lo) R.
  assert (T : forall n, ends (times n (decode_part c ks)) h (fun _ h' => h' = h)).
  { intros n. apply ends_times. unfold decode_part. al1; [| al]. apply ends_bind, ends_ask. intros a. destruct (nth_error ks a) as [k|] eqn:E; [| al].
    apply nth_error_In in E. rewrite Forall_forall in N. specialize (N k E). destruct k; [| | now destruct N]; unfold decompressor_init; al. }
  al1. al1. al1. al1. destruct R as [-> | (r & -> & Lr)]; al; apply T.
Qed.
(* the actions *)
Lemma with_pkg_balanced body : balanced_on body -> balanced (with_pkg body).
Proof.
  unfold balanced, with_pkg. intros B h. al1. call_gives open_gives; al.
  eapply ends_mono; [apply B, holds_new | intros ? ? ->; al].
Qed.
Lemma simple_balanced : balanced act_simple.
Proof. apply with_pkg_balanced, file_op_balanced. Qed.
Lemma act_sign_balanced raw : raw = true \/ se_mbed3 c = false -> balanced (act_sign c raw).
Proof.
  intros R. apply with_pkg_balanced. intros h p (i & -> & L). destruct raw; [al |].
  destruct R as [R | R]; [discriminate R | apply sign_balanced; [exact R | exists i; auto]].
Qed.
Lemma act_verify_balanced k : se_user c = false -> k <> KeyFile -> balanced (act_verify c k).
Proof.
  intros U K. apply with_pkg_balanced. intros h p (i & -> & L). destruct k; [congruence | | al].
  al1. call_gives keystore_gives; rewrite ?U in *; al.
Qed.
Lemma act_add_balanced w : w <> AddKey -> (w = AddMerkle -> se_oom c = false) -> balanced (act_add c w).
Proof.
  intros K O. apply with_pkg_balanced. intros h p Hp. destruct w; try congruence.
  - apply add_file_balanced, Hp.
  - apply merkle_balanced; auto.
  - apply file_op_balanced, Hp.
  - destruct Hp as (i & -> & L). al.
Qed.
Lemma act_extract_balanced meta part file : balanced (act_extract meta part file).
Proof.
  apply with_pkg_balanced. intros h p (i & -> & L). unfold act_extract.
  destruct meta, part, file; cbn [negb]; al; call_on extract_balanced; al.
Qed.
Lemma act_set_balanced grow : se_oom c = false -> balanced (act_set c grow).
Proof. unfold balanced, act_set, malloc, alloc. intros O h. rewrite O. al. Qed.
Lemma act_compare_balanced : balanced act_compare.
Proof. unfold balanced, act_compare. intros h. al. Qed.
Lemma act_generate_balanced : se_user c = false -> se_oom c = false -> balanced (act_generate c).
Proof.
  unfold balanced, act_generate, malloc, alloc. intros U O h. rewrite O.
  assert (T : forall n h, ends (times n (generate_key c)) h (fun _ h' => h' = h)).
  { intros n h0. apply ends_times. unfold generate_key. al. call_gives parse_gives; rewrite ?U in *; al. }
  al. eapply ends_mono; [apply T | intros rc ? ->; al].
Qed.

(* exactly what the other calls leave behind *)
Lemma public_exact h : se_oom c = false -> ends (load_public_key c) h (fun x h' =>
  if fst x =? 0 then exists i x', snd x = Some i /\ h' = (i, KMem (se_user c)) :: (x', KPk) :: h else h' = h).
Proof. unfold load_public_key. intros O. al. do 2 eexists. split; reflexivity. Qed.
Definition one_more (k : kind) (h h' : held) : Prop := h' = h \/ exists i, h' = (i, k) :: h.
Lemma add_key_exact h p : se_user c = false -> se_oom c = false -> holds KFile p h -> ends (add_key c p) h (fun _ h' => one_more KPk h h').
Proof.
  intros U O (i & -> & L). unfold add_key. al1. eapply ends_call; [apply public_exact, O | cbv beta; intros [rc key] h' D P].
  cbn [fst snd] in P. rewrite U in P. destruct (Nat.eqb_spec rc 0).
  - destruct P as (j & x & -> & ->). cbn [map fst] in D. apply NoDup_cons_iff in D as [D1 D2]. apply NoDup_cons_iff in D2 as [D2 _].
    al; right; eexists; reflexivity.
  - subst h'. al. now left.
Qed.
Lemma verify_exact h : se_user c = false -> se_oom c = false -> ends (act_verify c KeyFile) h (fun _ h' => one_more KPk h h').
Proof.
  intros U O. unfold act_verify, with_pkg. al1. call_gives open_gives; [| al; now left].
  al1. al1. eapply ends_call; [apply public_exact, O | cbv beta; intros [rc key] h' D' P].
  cbn [fst snd] in P. rewrite U in P. destruct (Nat.eqb_spec rc 0).
  - destruct P as (j & y & -> & ->). cbn [map fst] in D'. apply NoDup_cons_iff in D' as [D1 D2]. apply NoDup_cons_iff in D2 as [D2 _].
    al; right; eexists; reflexivity.
  - subst h'. al. now left.
Qed.
Lemma private_exact h : se_mbed3 c = true -> ends (load_private_key c) h (fun x h' => exists r e,
  if fst x =? 0 then exists i, snd x = Some i /\ h' = (i, KMem (se_user c)) :: (r, KRng) :: (e, KEnt) :: h else h' = (r, KRng) :: (e, KEnt) :: h).
Proof.
  unfold load_private_key. intros ME. rewrite ME. al; do 2 eexists; cbn [fst snd Nat.eqb fail];
    match goal with |- context [?n =? 0] => destruct (Nat.eqb_spec n 0); [contradiction|] | _ => idtac end; try reflexivity; eexists; split; reflexivity.
Qed.
Lemma sign_exact h p : se_mbed3 c = true -> holds KFile p h ->
  ends (pkg_sign c p) h (fun rc h' => (rc <> 0 /\ h' = h) \/ exists r e, h' = (r, KRng) :: (e, KEnt) :: h).
Proof.
  intros ME (i & -> & L). unfold pkg_sign. al; [| left; auto]. eapply ends_call; [apply private_exact, ME | cbv beta; intros [rc key] h' D (r & e & P)].
  cbn [fst snd] in P. destruct (Nat.eqb_spec rc 0).
  - destruct P as (j & -> & ->). new_one D. al; right; do 2 eexists; reflexivity.
  - subst h'. al. right; do 2 eexists; reflexivity.
Qed.
Lemma transport_exact ks w origin h : Forall plain ks -> ends (act_transport c ks w origin) h (fun _ h' => one_more KFile h h').
Proof.
  intros N. unfold act_transport.
  assert (Z : one_more KFile h h) by now left. assert (Y : forall i, one_more KFile h ((i, KFile) :: h)) by (right; eauto).
  al1. call_gives open_gives; [| al; exact Z]. al1. destruct origin.
  - call_gives open_gives; [| al; apply Y]. destruct w.
    + al; exact Z.
    + al1. call_gives open_gives; [| al; exact Z]. al1. eapply ends_mono.
      { apply encode_balanced; [exact N | eexists; split; [reflexivity | look] .. |]. right. eexists; split; [reflexivity | look]. }
      intros rc1 ? ->. al. apply Y.
    + al1. call_gives open_gives; [| al; exact Z]. al1. eapply ends_mono.
      { apply decode_balanced; [exact N | eexists; split; [reflexivity | look] .. |]. right. eexists; split; [reflexivity | look]. }
      intros rc1 ? ->. al. apply Y.
  - al1. cbn beta iota zeta delta [Nat.eqb]. destruct w.
    + al; exact Z.
    + al1. call_gives open_gives; [| al; exact Z]. al1. eapply ends_mono.
      { apply encode_balanced; [exact N | eexists; split; [reflexivity | look] .. |]. now left. }
      intros rc1 ? ->. al. apply Y.
    + al1. call_gives open_gives; [| al; exact Z]. al1. eapply ends_mono.
      { apply decode_balanced; [exact N | eexists; split; [reflexivity | look] .. |]. now left. }
      intros rc1 ? ->. al. apply Y.
Qed.
Lemma transport_add_balanced ks : balanced (act_transport c ks TrAdd false).
Proof. unfold balanced, act_transport. intros h. al1. call_gives open_gives; al. Qed.

(* with liblzma: a failing call may leave one block behind *)
Definition on_error (k : kind) (h : held) (rc : nat) (h' : held) : Prop := (rc = 0 -> h' = h) /\ one_more k h h'.
Lemma on_error_same k h rc : on_error k h rc h.
Proof. split; [auto | now left]. Qed.
Lemma on_error_more k h rc i : rc <> 0 -> on_error k h rc ((i, k) :: h).
Proof. split; [congruence | right; eauto]. Qed.
Lemma times_on_error n body k h : ends body h (on_error k h) -> ends (times n body) h (on_error k h).
Proof.
  intros B. induction n as [|n IH]; cbn [times]; [apply ends_ret, on_error_same|]. apply ends_bind. eapply ends_mono; [exact B|].
  intros rc h' [Z O]. destruct (Nat.eqb_spec rc 0) as [-> | X]; [rewrite (Z eq_refl); exact IH | apply ends_ret; split; [congruence | exact O]].
Qed.
Ltac done_lzma := first [apply on_error_same | apply on_error_more; first [assumption | discriminate]].
Lemma transport_bsdiff_lzma k h : se_user c = false -> ends (transport_bsdiff c k) h (on_error (KMem false) h).
Proof.
  intros U. destruct k; try (eapply ends_mono; [apply transport_bsdiff_balanced; discriminate | intros ? ? ->; apply on_error_same]).
  unfold transport_bsdiff, bsdiff_init, bsdiff, bsdiff_free, compressor_init, compressor_free.
  al; rewrite ?U; al; try done_lzma.
Qed.

Lemma encode_lzma ks fpi fpo fpr h : se_user c = false -> holds KFile fpi h -> holds KFile fpo h -> fpr = None \/ holds KFile fpr h ->
  ends (transport_encode c ks fpi fpo fpr) h (on_error (KMem false) h).
Proof.
  unfold transport_encode. intros U (i & -> & Li) (o & -> & Lo) R.
  assert (T : forall n, ends (times n (transport_part c ks)) h (on_error (KMem false) h)).
  { intros n. apply times_on_error. unfold transport_part. apply ends_bind, ends_ask. intros a.
    destruct (nth_error ks a) as [k|]; al; try apply on_error_same. apply transport_bsdiff_lzma, U. }
  assert (V : ends (steps 3 (n <- ask ;; rc <- times n (transport_part c ks) ;; if rc =? 0 then ask else ret rc) (fun n => ret n)) h (on_error (KMem false) h)).
  { al1; [| al; apply on_error_same]. al1. al1. al1. eapply ends_mono; [apply T | intros rc h' [Z O]].
    destruct (Nat.eqb_spec rc 0) as [-> | X]; [rewrite (Z eq_refl); al; apply on_error_same | apply ends_ret; split; [congruence | exact O]]. }
  al1. al1. al1. al1. destruct R as [-> | (r & -> & Lr)]; al1; al1; exact V.
Qed.
Lemma decode_lzma ks fpi fpo fpr h : se_user c = false -> holds KFile fpi h -> holds KFile fpo h -> fpr = None \/ holds KFile fpr h ->
  ends (transport_decode c ks fpi fpo fpr) h (on_error (KMem false) h).
Proof.
  unfold transport_decode. intros U (i & -> & Li) (o & -> & Lo) R.
  assert (T : forall n, ends (times n (decode_part c ks)) h (on_error (KMem false) h)).
  { intros n. apply times_on_error. unfold decode_part. al1; [| al; apply on_error_same]. apply ends_bind, ends_ask. intros a.
    destruct (nth_error ks a) as [k|]; [| al; apply on_error_same]. destruct k; unfold decompressor_init; al; rewrite ?U; al; try done_lzma. }
  al1. al1. al1. al1. destruct R as [-> | (r & -> & Lr)]; al; try apply T; apply on_error_same.
Qed.
(* what a transport command leaves behind at most *)
Definition left_open (h h' : held) : Prop := exists l, h' = l ++ h /\ (map snd l = [] \/ map snd l = [KFile] \/ map snd l = [KMem false; KFile]).
Lemma transport_lzma ks w origin h : se_user c = false -> ends (act_transport c ks w origin) h (fun _ h' => left_open h h').
Proof.
  intros U. unfold act_transport.
  assert (Z : left_open h h) by (exists []; auto). assert (Y : forall i, left_open h ((i, KFile) :: h)) by (intros i; exists [(i, KFile)]; cbn; auto).
  assert (X : forall b i, left_open h ((b, KMem false) :: (i, KFile) :: h)) by (intros b i; exists [(b, KMem false); (i, KFile)]; cbn; auto).
  al1. call_gives open_gives; [| al; exact Z]. al1. destruct origin.
  - call_gives open_gives; [| al; apply Y]. destruct w.
    + al; exact Z.
    + al1. call_gives open_gives; [| al; exact Z]. al1. eapply ends_call.
      { apply encode_lzma; [exact U | eexists; split; [reflexivity | look] .. |]. right. eexists; split; [reflexivity | look]. }
      intros rc1 h' ND [_ [-> | [b ->]]]; [| new_one ND]; al; auto.
    + al1. call_gives open_gives; [| al; exact Z]. al1. eapply ends_call.
      { apply decode_lzma; [exact U | eexists; split; [reflexivity | look] .. |]. right. eexists; split; [reflexivity | look]. }
      intros rc1 h' ND [_ [-> | [b ->]]]; [| new_one ND]; al; auto.
  - al1. cbn beta iota zeta delta [Nat.eqb]. destruct w.
    + al; exact Z.
    + al1. call_gives open_gives; [| al; exact Z]. al1. eapply ends_call.
      { apply encode_lzma; [exact U | eexists; split; [reflexivity | look] .. |]. now left. }
      intros rc1 h' ND [_ [-> | [b ->]]]; [| new_one ND]; al; auto.
    + al1. call_gives open_gives; [| al; exact Z]. al1. eapply ends_call.
      { apply decode_lzma; [exact U | eexists; split; [reflexivity | look] .. |]. now left. }
      intros rc1 h' ND [_ [-> | [b ->]]]; [| new_one ND]; al; auto.
Qed.
End Setup.
