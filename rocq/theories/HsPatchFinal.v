(* HsPatchFinal.v -- compressed patches from end to end *)
From Verif Require Import Base BaseLemmas BspatchModel BspatchSpec BspatchProofs BspatchApply BspatchSafe BsdiffModel BsdiffProofs BsdiffSafe
  HsSpec HsBits HsModel HsDecoder HsDecApi HsEncoder HsEncStep HsEncApi HsPatchModel HsPatchProofs HsPatchDec.

Lemma bytes_ok_concat_inv (l : list bytes) : bytes_ok (concat l) -> Forall bytes_ok l.
Proof. induction l as [|b l IH]; cbn [concat]; intros H; [constructor|]. apply bytes_ok_app in H as [H1 H2]. constructor; auto. Qed.
Lemma bytes_ok_znth (h : bytes) i : bytes_ok h -> 0 <= znth 0 i h < 256.
Proof.
  intros H. unfold znth. destruct (Nat.lt_ge_cases (Z.to_nat i) (length h)) as [C|C].
  - unfold bytes_ok in H. rewrite Forall_forall in H. apply H. apply nth_In. exact C.
  - rewrite nth_overflow by lia. lia.
Qed.
Lemma repeat_back_bytes n : forall d h, bytes_ok h -> bytes_ok (repeat_back n d h).
Proof.
  induction n as [|n IH]; intros d h H; cbn [repeat_back]; [exact H|]. apply IH. apply bytes_ok_app. split; [exact H|].
  constructor; [apply bytes_ok_znth; exact H|constructor].
Qed.
Lemma fold_expand_bytes ts : Forall token_ok ts -> forall h, bytes_ok h -> bytes_ok (fold_left expand1 ts h).
Proof.
  induction 1 as [|t ts Ht _ IH]; intros h H; cbn [fold_left]; [exact H|]. apply IH. destruct t; cbn [expand1].
  - apply bytes_ok_app. split; [exact H|]. constructor; [exact Ht|constructor].
  - apply repeat_back_bytes; exact H.
Qed.
Lemma hs_decode_bytes s : bytes_ok (hs_decode s).
Proof.
  rewrite hs_decode_tokens. unfold expand. apply bytes_ok_zdrop. apply fold_expand_bytes; [apply tokens_ok|]. apply bytes_ok_zeros.
Qed.
Lemma enc_patch_bytes rs : Forall record_ok rs -> Forall adj_ok rs -> bytes_ok (enc_patch rs).
Proof.
  intros H _. induction H as [|r rs (R1 & R2 & R3 & R4 & R5) _ IH]; [constructor|]. unfold enc_patch. cbn [map concat]. fold (enc_patch rs).
  pose proof (zlen_nonneg (r_diff r)). pose proof (zlen_nonneg (r_extra r)).
  unfold enc_record. rewrite !bytes_ok_app.
  assert (EI : forall x, - 2^63 < x < 2^63 -> bytes_ok (enc_int x)) by (intros x Hx; apply enc_int_ok; exact Hx).
  repeat split; auto; apply EI; lia.
Qed.
Lemma hs_diff_ok o n sa pf poff l :
  bytes_ok n -> zlen o < 2^62 -> zlen n < 2^62 -> 0 <= poff ->
  bsdiff_chunks o n sa = Ok l ->
  exists p, bsdiff_hs o n sa pf poff = Ok (fwrite_at pf poff p, zlen p) /\ compressed p (concat l).
Proof.
  intros Hn Bo Bn Hp E. unfold bsdiff_hs. rewrite E. cbn [bind].
  apply (bsdiff_chunks_ok o n Hn Bo Bn sa) in E as (rs & A & B & C & D).
  assert (F : Forall bytes_ok l) by (apply bytes_ok_concat_inv; rewrite A; apply enc_patch_bytes; auto).
  destruct (compress_ok l F) as (e & w & e2 & w2 & E1 & E2 & K). rewrite E1. cbn [bind]. rewrite E2. cbn [bind].
  rewrite write_all_concat by lia. rewrite Z.add_0_r. eexists. split; [reflexivity|exact K].
Qed.
Lemma hs_diff_then_patch o n sa pf poff pf1 plen :
  bytes_ok n -> zlen o < 2^62 -> zlen n < 2^62 -> 0 <= poff ->
  bsdiff_hs o n sa pf poff = Ok (pf1, plen) ->
  exists p, pf1 = fwrite_at pf poff p /\ plen = zlen p /\
    forall file ooff woff blen f l,
      0 < blen -> zlen file < 2^62 -> 0 <= woff -> 0 <= ooff ->
      slice ooff (zlen o) file = o -> ooff + zlen o <= zlen file -> concat l = p -> Forall (fun b : bytes => b <> []) l ->
      exists h1, hsp_chunks file ooff woff blen plen hsp_init f l = (h1, fwrite_at f woff n, Ok tt) /\
        bspatch_final (hp_bs h1) = Ok (zlen n).
Proof.
  intros Hn Bo Bn Hp E. assert (E0 := E). unfold bsdiff_hs in E0. apply bind_ok in E0 as (l & E1 & _).
  destruct (hs_diff_ok o n sa pf poff l Hn Bo Bn Hp E1) as (p & E2 & K). rewrite E2 in E. injection E as <- <-.
  exists p. split; [reflexivity|]. split; [reflexivity|].
  apply (bsdiff_chunks_ok o n Hn Bo Bn sa) in E1 as (rs & A & B & C & D).
  intros file ooff woff blen f l2 H1 H2 H3 H4 H5 H6 H7 H8.
  assert (X : expected (zlen p) 0 l2) by (apply expected_nonempty; [exact H8|rewrite H7; lia]).
  destruct (hs_patch_equiv file ooff woff blen (zlen p) H1 l2 f X) as (outs & Eo & Q).
  rewrite H7, (compressed_decodes _ _ K), A in Eo.
  destruct (apply_patch_chunks file ooff woff blen o rs n f outs H1 H2 H3 H4 H5 H6 B C D Eo) as (c1 & P1 & P2).
  destruct (hsp_chunks file ooff woff blen (zlen p) hsp_init f l2) as [[h1 f1] r]. rewrite P1 in Q. injection Q as -> -> ->.
  exists h1. auto.
Qed.
(* hostile compressed patches *)
Lemma hs_terminates o ooff woff blen ilen f l :
  0 < blen -> 0 <= woff -> zlen o < 2^63 -> expected ilen 0 l ->
  snd (hsp_chunks o ooff woff blen ilen hsp_init f l) <> Stuck.
Proof.
  intros B Hw Ho X. destruct (hs_patch_equiv o ooff woff blen ilen B l f X) as (outs & _ & Q).
  pose proof (chunks_not_stuck o ooff woff blen bs_init f outs B Hw Ho bwf_init) as T.
  destruct (hsp_chunks o ooff woff blen ilen hsp_init f l) as [[h1 f1] r]. rewrite Q in T. exact T.
Qed.
Lemma hs_no_ub o ooff woff blen ilen f l :
  0 < blen -> 0 <= woff -> zlen o < 2^63 -> expected ilen 0 l ->
  (let p := hs_decode (concat l) in headers_sane ooff 0 (patch_headers (length p) p)) ->
  snd (hsp_chunks o ooff woff blen ilen hsp_init f l) <> UB.
Proof.
  intros B Hw Ho X HS. destruct (hs_patch_equiv o ooff woff blen ilen B l f X) as (outs & Eo & Q).
  pose proof (chunks_no_ub o ooff woff blen f _ outs B Hw Ho (hs_decode_bytes _) Eo HS) as T.
  destruct (hsp_chunks o ooff woff blen ilen hsp_init f l) as [[h1 f1] r]. rewrite Q in T. exact T.
Qed.

Lemma hs_patch_meaning o ooff woff blen part rs out f l :
  0 < blen -> zlen o < 2^62 -> 0 <= woff -> 0 <= ooff ->
  slice ooff (zlen part) o = part -> ooff + zlen part <= zlen o ->
  Forall record_ok rs -> Forall (fun r => - 2^62 < r_adj r < 2^62) rs ->
  apply_records part 0 rs = Some out -> compressed (concat l) (enc_patch rs) -> Forall (fun b : bytes => b <> []) l ->
  exists h1, hsp_chunks o ooff woff blen (zlen (concat l)) hsp_init f l = (h1, fwrite_at f woff out, Ok tt) /\
    bspatch_final (hp_bs h1) = Ok (zlen out).
Proof.
  intros H1 H2 H3 H4 H5 H6 B C D K N.
  assert (X : expected (zlen (concat l)) 0 l) by (apply expected_nonempty; [exact N|lia]).
  destruct (hs_patch_equiv o ooff woff blen _ H1 l f X) as (outs & Eo & Q).
  rewrite (compressed_decodes _ _ K) in Eo.
  destruct (apply_patch_chunks o ooff woff blen part rs out f outs H1 H2 H3 H4 H5 H6 B C D Eo) as (c1 & P1 & P2).
  destruct (hsp_chunks o ooff woff blen _ hsp_init f l) as [[h1 f1] r]. rewrite P1 in Q. injection Q as -> -> ->.
  exists h1. auto.
Qed.
