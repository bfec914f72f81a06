(* SafeExtract.v -- bpak_pkg_extract_file on arbitrary headers and on
   transport-encoded parts *)
From Verif Require Import BaseLemmas HeaderModel HeaderSpec CodecProofs PartProofs HashModel CrcModel VerifyModel SafeSpec SafeProofs PkgModel PkgSpec PkgProofs.

Lemma copy_out_answers f : forall fuel pos left out, 0 <= left -> left <= 4096 * Z.of_nat fuel ->
  answers (snd (copy_out_loop fuel f pos left out)).
Proof.
  induction fuel as [|k IH]; intros pos left out Hl Hf; cbn [copy_out_loop];
    (destruct (Z.eqb_spec left 0); [apply ans_ok|]); [lia|].
  change CHUNK with 4096. destruct (Z.gtb_spec left 4096);
    match goal with |- context [zlen ?x =? ?y] => destruct (zlen x =? y) end; try apply ans_err; apply IH; lia.
Qed.
Lemma extract_answers p id : answers (snd (pkg_extract_file p id)).
Proof.
  unfold pkg_extract_file, get_part. destruct (find_index _ _) as [i|] eqn:E; [|apply ans_err].
  destruct (find_index_Some _ _ _ E) as (a & q & b & Ep & La & _ & _).
  assert (Nq : nth_error (h_parts (pk_header p)) i = Some q).
  { rewrite Ep, nth_error_app2, La, Nat.sub_diag by lia. reflexivity. }
  rewrite Nq. destruct (part_offset _ _ <? 0); [apply ans_err|].
  set (left := u64 (part_size q - p_pad_bytes q)).
  assert (0 <= left) by (subst left; unfold u64; lia). clearbody left.
  pose proof (copy_out_answers (pk_file p) (Z.to_nat (left / CHUNK + 1)) (part_offset (pk_header p) q) left []) as C.
  destruct (copy_out_loop _ _ _ _ _) as [out r]. cbn [snd] in *. apply C; [lia|].
  change CHUNK with 4096. lia.
Qed.

(* the stored bytes c of a part, encoded or not: what is copied *)
Lemma extract_stored p (a : list (parth * bytes)) q (c : bytes) (b : list (parth * bytes)) : holds p (a ++ (q, c) :: b) ->
  p_pad_bytes q <= zlen c ->
  pkg_extract_file p (p_id q) = (Some (ztake (zlen c - p_pad_bytes q) c), Ok tt).
Proof.
  intros H Hp. destruct (get_part_at _ _ _ _ _ H) as [G N]. unfold pkg_extract_file. rewrite G, N.
  rewrite (part_offset_at _ _ _ _ _ H).
  destruct (entry_wf _ _ (q, c) H (in_elt _ _ _)) as (W & S & B). cbn [fst snd] in *.
  pose proof (zlen_nonneg (concat (map snd a))) as Ha. pose proof (zlen_nonneg c) as Hc.
  destruct (Z.ltb_spec (4096 + zlen (concat (map snd a))) 0); [lia|].
  rewrite part_size_stored by (auto; lia). rewrite <- S.
  assert (P0 : 0 <= p_pad_bytes q) by (destruct W as (_ & _ & _ & _ & W5 & _); lia).
  unfold u64. rewrite Z.mod_small by lia.
  assert (F : pk_file p = (enc_header (pk_header p) ++ concat (map snd a)) ++ c ++ concat (map snd b)).
  { rewrite (ho_file _ _ H), map_app, concat_app. cbn [map concat snd]. now rewrite app_assoc. }
  assert (L : zlen (enc_header (pk_header p) ++ concat (map snd a)) = 4096 + zlen (concat (map snd a))).
  { rewrite zlen_app, zlen_enc_header by apply (ho_wf _ _ H). reflexivity. }
  rewrite copy_out_spec; try lia.
  - f_equal. f_equal. cbn [app]. rewrite F. rewrite slice_app_r by lia. rewrite L, Z.sub_diag.
    rewrite slice_app_l by lia. unfold slice. rewrite zdrop_0. reflexivity.
  - rewrite F, !zlen_app in *. pose proof (zlen_nonneg (concat (map snd b))). lia.
  - unfold CHUNK. lia.
Qed.
Lemma extract_wraps p (a : list (parth * bytes)) q (c : bytes) (b : list (parth * bytes)) : holds p (a ++ (q, c) :: b) ->
  zlen c < p_pad_bytes q -> exists out, pkg_extract_file p (p_id q) = (Some out, Err E_READ_ERROR).
Proof.
  intros H Hp. destruct (get_part_at _ _ _ _ _ H) as [G N]. unfold pkg_extract_file. rewrite G, N.
  rewrite (part_offset_at _ _ _ _ _ H).
  destruct (entry_wf _ _ (q, c) H (in_elt _ _ _)) as (W & S & B). cbn [fst snd] in *.
  pose proof (zlen_nonneg (concat (map snd a))) as Ha. pose proof (zlen_nonneg c) as Hc.
  destruct (Z.ltb_spec (4096 + zlen (concat (map snd a))) 0); [lia|].
  rewrite part_size_stored by (auto; lia). rewrite <- S.
  assert (P0 : 0 <= p_pad_bytes q < 2^16) by (destruct W as (_ & _ & _ & _ & W5 & _); lia).
  assert (U : u64 (zlen c - p_pad_bytes q) = zlen c - p_pad_bytes q + 2^64).
  { unfold u64. symmetry. apply Z.mod_unique with (-1); lia. }
  rewrite U. pose proof (ho_bound _ _ H).
  destruct (copy_out_short (pk_file p) (Z.to_nat ((zlen c - p_pad_bytes q + 2^64) / CHUNK + 1)) (4096 + zlen (concat (map snd a)))
    (zlen c - p_pad_bytes q + 2^64) []) as [o E]; try lia.
  - unfold CHUNK. lia.
  - rewrite E. exists o. reflexivity.
Qed.
