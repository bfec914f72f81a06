(* VerifyProofs.v -- payload and header hashes, sign and verify *)
From Verif Require Import BaseLemmas HeaderModel HeaderSpec CodecProofs PartProofs HashModel MerkleModel
  MerkleVerify VerifyModel VerifySpec.

Lemma file_rd_iff f o n : 0 <= o -> 0 <= n ->
  file_rd f o n = (if (n =? 0) || (o + n <=? zlen f) then Ok (slice o n f) else Err E_READ_ERROR).
Proof.
  intros Ho Hn. unfold file_rd, fread_at. destruct (Z.ltb_spec o 0); [lia|].
  rewrite zlen_slice. pose proof (zlen_nonneg f).
  destruct (Z.eqb_spec n 0) as [->|]; cbn [orb].
  - destruct (Z.eqb_spec (Z.max 0 (Z.min 0 (zlen f - Z.max 0 (Z.min o (zlen f))))) 0); [reflexivity|lia].
  - destruct (Z.leb_spec (o + n) (zlen f)).
    + destruct (Z.eqb_spec (Z.max 0 (Z.min n (zlen f - Z.max 0 (Z.min o (zlen f))))) n); [reflexivity|lia].
    + destruct (Z.eqb_spec (Z.max 0 (Z.min n (zlen f - Z.max 0 (Z.min o (zlen f))))) n); [lia|reflexivity].
Qed.

(* one part: the chunked loop hashes the whole area or fails *)
Lemma hash_part_loop_eq f : forall fuel c pos left, 0 <= pos -> 0 <= left -> left / 4096 < Z.of_nat fuel ->
  hash_part_loop (file_rd f) fuel c pos left =
    if (left =? 0) || (pos + left <=? zlen f)
    then Ok (hash_update c (slice pos left f), pos + left) else Err E_READ_ERROR.
Proof.
  induction fuel as [|fuel IH]; intros c pos left Hp Hl Hf; [lia|].
  cbn [hash_part_loop]. unfold CHUNK. rewrite Z.gtb_ltb.
  destruct (Z.ltb_spec 4096 left) as [Hbig|Hsmall].
  - rewrite file_rd_iff by lia. cbn [Z.eqb orb].
    destruct (Z.leb_spec (pos + 4096) (zlen f)).
    + destruct (Z.eqb_spec (left - 4096) 0); [lia|].
      rewrite IH by lia.
      destruct (Z.eqb_spec (left - 4096) 0); [lia|]. destruct (Z.eqb_spec left 0); [lia|]. cbn [orb].
      replace (pos + 4096 + (left - 4096)) with (pos + left) by lia.
      destruct (pos + left <=? zlen f); [|reflexivity].
      f_equal. f_equal. unfold hash_update. cbn [fst snd]. f_equal. rewrite <- app_assoc. f_equal.
      replace left with (4096 + (left - 4096)) at 2 by lia. rewrite slice_split by lia. reflexivity.
    + destruct (Z.eqb_spec left 0); [lia|]. cbn [orb].
      destruct (Z.leb_spec (pos + left) (zlen f)); [lia|]. reflexivity.
  - rewrite file_rd_iff by lia.
    destruct ((left =? 0) || (pos + left <=? zlen f)) eqn:E; [|reflexivity].
    rewrite Z.sub_diag. reflexivity.
Qed.

Lemma has_flag_excl p : has_flag p FLAG_EXCLUDE_FROM_HASH = excluded p.
Proof.
  unfold has_flag, excluded, FLAG_EXCLUDE_FROM_HASH. rewrite Z.bit0_odd.
  change 1 with (Z.ones 1) at 1. rewrite Z.land_ones by lia. change (2^1) with 2.
  rewrite Zmod_odd. destruct (Z.odd (p_flags p)); reflexivity.
Qed.

Definition sizes_ok (l : list parth) : Prop := Forall (fun p => wf_part p /\ stored_size p < 2^64) l.

Definition present_b (f : bytes) (x : parth * Z) : bool :=
  (stored_size (fst x) =? 0) || (snd x + stored_size (fst x) <=? zlen f).
Lemma hash_parts_loop_eq f : forall l c pos, 0 <= pos -> sizes_ok l ->
  hash_parts_loop (file_rd f) c pos l =
    if forallb (present_b f) (hashed_parts pos l)
    then Ok (hash_update c (hashed_payload f pos l)) else Err E_READ_ERROR.
Proof.
  induction l as [|p l IH]; intros c pos Hp Hok; cbn [hash_parts_loop].
  { unfold hashed_payload, hashed_parts, hash_update. cbn. rewrite app_nil_r. now destruct c. }
  inversion Hok as [|? ? [W Hs] Hok']; subst.
  unfold hashed_payload, hashed_parts, used in *. cbn [filter].
  destruct (Z.eqb_spec (p_id p) 0) as [E|E]; cbn [negb].
  { apply IH; auto. }
  pose proof (stored_size_nonneg p W).
  cbn [placed filter fst]. rewrite has_flag_excl, part_size_stored by auto.
  destruct (excluded p) eqn:X; cbn [negb].
  { apply IH; auto. lia. }
  cbn [forallb map concat fst snd]. rewrite hash_part_loop_eq; [|lia|lia|unfold CHUNK; lia].
  unfold present_b at 1. cbn [fst snd].
  destruct ((stored_size p =? 0) || (pos + stored_size p <=? zlen f)); [|reflexivity].
  cbn [bind andb]. rewrite IH by (auto; lia).
  destruct (forallb _ _); [|reflexivity]. unfold hash_update. cbn [fst snd]. now rewrite app_assoc.
Qed.
Lemma present_iff f pos l : forallb (present_b f) (hashed_parts pos l) = true <-> payload_present f pos l.
Proof.
  unfold payload_present. rewrite forallb_forall, Forall_forall. unfold present_b.
  split; intros H x Hx; specialize (H x Hx).
  - apply orb_true_iff in H as [H|H]; [left|right]; lia.
  - apply orb_true_iff. destruct H; [left|right]; lia.
Qed.
Lemma hash_init_ok k : hash_supported k = true -> hash_init k = Ok (k, []).
Proof. unfold hash_init. now intros ->. Qed.
Lemma hash_final_ok sha k m room : hash_supported k = true -> digest_len k <= room ->
  hash_final sha (k, m) room = Ok (sha k m).
Proof. intros H R. unfold hash_final. cbn [fst snd]. rewrite H. cbn [negb]. destruct (Z.ltb_spec room (digest_len k)); [lia|reflexivity]. Qed.
Lemma digest_len_le k : digest_len k <= 64.
Proof. unfold digest_len. destruct (k =? HASH_SHA256), (k =? HASH_SHA384), (k =? HASH_SHA512); lia. Qed.

Theorem payload_hash_spec sha h f pos room :
  sizes_ok (h_parts h) -> 0 <= pos ->
  let x := compute_payload_hash sha h (file_rd f) pos room in
  (hash_supported (h_hash_kind h) = false -> x = Err E_UNSUPPORTED_HASH_ALG) /\
  (hash_supported (h_hash_kind h) = true ->
     (~ payload_present f pos (h_parts h) -> x = Err E_READ_ERROR) /\
     (payload_present f pos (h_parts h) ->
        (room < digest_len (h_hash_kind h) -> x = Err E_SIZE_ERROR) /\
        (digest_len (h_hash_kind h) <= room -> x = Ok (sha (h_hash_kind h) (hashed_payload f pos (h_parts h)))))).
Proof.
  intros Hok Hp x. subst x. unfold compute_payload_hash.
  split; [intros E; unfold hash_init; rewrite E; reflexivity|]. intros E.
  rewrite hash_init_ok by auto. cbn [bind]. rewrite hash_parts_loop_eq by auto.
  pose proof (present_iff f pos (h_parts h)) as PI.
  split; [intros N|intros P].
  - destruct (forallb _ _); [|reflexivity]. now elim N; apply PI.
  - apply PI in P. rewrite P. cbn [bind]. unfold hash_update. cbn [fst snd app]. split; intros R.
    + unfold hash_final. cbn [fst]. rewrite E. cbn [negb].
      destruct (Z.ltb_spec room (digest_len (h_hash_kind h))); [reflexivity|lia].
    + now apply hash_final_ok.
Qed.

(* with no holes in the table the hashed areas are the part areas *)
Lemma used_live slots live : parts_are slots live -> used slots = live.
Proof.
  intros (e & -> & _ & H1 & _ & H2). unfold used. rewrite filter_app.
  replace (filter _ e) with (@nil parth).
  - rewrite app_nil_r. clear -H1. induction H1 as [|p l H _ IH]; [reflexivity|]. cbn [filter].
    destruct (Z.eqb_spec (p_id p) 0); [contradiction|]. cbn [negb]. now rewrite IH.
  - clear -H2. induction H2 as [|p l H _ IH]; [reflexivity|]. cbn [filter]. rewrite H. exact IH.
Qed.
Lemma placed_split a p b pos : placed pos (a ++ p :: b) = placed pos a ++ (p, pos + sum_sizes a) :: placed (pos + sum_sizes a + stored_size p) b.
Proof.
  revert pos. induction a as [|q a IH]; intros pos; cbn [app placed].
  - change (sum_sizes []) with 0. rewrite Z.add_0_r. reflexivity.
  - rewrite IH, sum_sizes_cons. rewrite Z.add_assoc. reflexivity.
Qed.
Lemma in_placed x q l pos : In (x, q) (placed pos l) -> exists a b, l = a ++ x :: b /\ q = pos + sum_sizes a.
Proof.
  revert pos. induction l as [|p l IH]; intros pos; cbn [placed]; [intros []|].
  intros [E|H].
  - injection E as -> ->. exists [], l. split; [reflexivity|]. change (sum_sizes []) with 0. lia.
  - destruct (IH _ H) as (a & b & -> & ->). exists (p :: a), b. rewrite sum_sizes_cons. split; [reflexivity|lia].
Qed.
Theorem hashed_at_part_offset h live x q :
  parts_are (h_parts h) live -> Forall wf_part (h_parts h) -> 4096 + sum_sizes live < 2^63 ->
  In (x, q) (hashed_parts 4096 (h_parts h)) -> part_offset h x = q /\ part_size x = stored_size x.
Proof.
  intros Hp W Hs Hin. unfold hashed_parts in Hin. apply filter_In in Hin as [Hin _].
  rewrite (used_live _ _ Hp) in Hin. destruct (in_placed _ _ _ _ Hin) as (a & b & -> & ->).
  assert (Wl : Forall wf_part (a ++ x :: b)).
  { destruct Hp as (e & E & _). rewrite E in W. apply Forall_app in W as [W _]. exact W. }
  apply Forall_app in Wl as [Wa Wx]. inversion Wx as [|? ? Wx1 Wb]; subst.
  rewrite sum_sizes_app, sum_sizes_cons in Hs. pose proof (stored_size_nonneg x Wx1).
  pose proof (sum_sizes_nonneg _ Wb). pose proof (sum_sizes_nonneg _ Wa). split.
  - eapply part_offset_prefix; eauto; lia.
  - apply part_size_stored; auto. lia.
Qed.
