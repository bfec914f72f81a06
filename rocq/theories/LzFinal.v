(* LzFinal.v -- LZMA-compressed patches from end to end *)
From Verif Require Import Base BaseLemmas BspatchModel BspatchSpec BspatchProofs BspatchApply BspatchSafe BsdiffModel BsdiffProofs BsdiffSafe
  HsPatchDec HsPatchFinal LzModel LzSpec LzProofs.

Lemma lz_diff_ok L stream o n sa pf poff l :
  lz_encodes L stream ->
  bytes_ok n -> zlen o < 2^62 -> zlen n < 2^62 -> 0 <= poff ->
  bsdiff_chunks o n sa = Ok l ->
  exists p, bsdiff_lz L o n sa pf poff = Ok (fwrite_at pf poff p, zlen p) /\ stream (concat l) p /\ bytes_ok p.
Proof.
  intros HE Hn Bo Bn Hp E. unfold bsdiff_lz. rewrite E. cbn [bind].
  apply (bsdiff_chunks_ok o n Hn Bo Bn sa) in E as (rs & A & B & C & D).
  assert (F : Forall bytes_ok l) by (apply bytes_ok_concat_inv; rewrite A; apply enc_patch_bytes; auto).
  destruct (lzc_ok L stream l HE F) as (s & w & w2 & E1 & E2 & K & Kb). rewrite E1. cbn [bind]. rewrite E2. cbn [bind].
  rewrite write_all_concat by lia. rewrite Z.add_0_r. eexists. split; [reflexivity|]. split; [exact K|exact Kb].
Qed.
(* records compressed into [p]; all of it, or a part of it, fed in non-empty chunks *)
Lemma lz_patch_meaning L stream o ooff woff blen part rs out f l rest :
  lz_decodes L stream ->
  0 < blen -> zlen o < 2^62 -> 0 <= woff -> 0 <= ooff ->
  slice ooff (zlen part) o = part -> ooff + zlen part <= zlen o ->
  Forall record_ok rs -> Forall (fun r => - 2^62 < r_adj r < 2^62) rs ->
  apply_records part 0 rs = Some out -> stream (enc_patch rs) (concat l ++ rest) -> Forall (fun b : bytes => b <> []) l ->
  (rest = [] -> lzp_all L o ooff woff blen f l = (fwrite_at f woff out, Ok (zlen out))) /\
  (rest <> [] -> snd (lzp_all L o ooff woff blen f l) = Err E_DECOMPRESSOR_ERROR).
Proof.
  intros HD H1 H2 H3 H4 H5 H6 B C D K N.
  destruct (pulls_decodes L stream _ _ l rest HD K N eq_refl) as (outs & s1 & r & E & [x X1] & K1 & K2).
  pose proof (lzp_all_pull L l) as Q. rewrite E in Q. rewrite (Q o ooff woff blen f). split; intros Hr.
  - destruct (K1 Hr) as [-> Eo]. symmetry in Eo.
    destruct (apply_patch_chunks o ooff woff blen part rs out f outs H1 H2 H3 H4 H5 H6 B C D Eo) as (c1 & P1 & P2).
    rewrite P1. cbn [as_z]. unfold bspatch_final in P2. destruct (bs_state c1); congruence.
  - rewrite (K2 Hr).
    assert (Eo : concat (outs ++ [x]) = enc_patch rs) by (rewrite concat_app; cbn [concat]; rewrite app_nil_r; symmetry; exact X1).
    destruct (apply_patch_chunks o ooff woff blen part rs out f (outs ++ [x]) H1 H2 H3 H4 H5 H6 B C D Eo) as (c1 & P1 & _).
    rewrite bspatch_chunks_app in P1.
    destruct (bspatch_chunks o ooff woff blen bs_init f outs) as [[c2 f2] [[]| | |]]; try discriminate. reflexivity.
Qed.
Lemma lz_diff_then_patch lib o n sa pf poff pf1 plen :
  lz_good lib ->
  bytes_ok n -> zlen o < 2^62 -> zlen n < 2^62 -> 0 <= poff ->
  bsdiff_lz (lz_enc lib) o n sa pf poff = Ok (pf1, plen) ->
  exists p, pf1 = fwrite_at pf poff p /\ plen = zlen p /\
    forall file ooff woff blen f (l : list bytes) (rest : bytes),
      0 < blen -> zlen file < 2^62 -> 0 <= woff -> 0 <= ooff ->
      slice ooff (zlen o) file = o -> ooff + zlen o <= zlen file -> concat l ++ rest = p -> Forall (fun b : bytes => b <> []) l ->
      (rest = [] -> lzp_all (lz_dec lib) file ooff woff blen f l = (fwrite_at f woff n, Ok (zlen n))) /\
      (rest <> [] -> snd (lzp_all (lz_dec lib) file ooff woff blen f l) = Err E_DECOMPRESSOR_ERROR).
Proof.
  intros (stream & HE & HD) Hn Bo Bn Hp E. assert (E0 := E). unfold bsdiff_lz in E0. apply bind_ok in E0 as (l & E1 & _).
  destruct (lz_diff_ok _ stream o n sa pf poff l HE Hn Bo Bn Hp E1) as (p & E2 & K & Kb). rewrite E2 in E. injection E as <- <-.
  exists p. split; [reflexivity|]. split; [reflexivity|].
  apply (bsdiff_chunks_ok o n Hn Bo Bn sa) in E1 as (rs & A & B & C & D). rewrite A in K.
  intros file ooff woff blen f l2 rest H1 H2 H3 H4 H5 H6 H7 H8. subst p.
  exact (lz_patch_meaning _ stream file ooff woff blen o rs n f l2 rest HD H1 H2 H3 H4 H5 H6 B C D K H8).
Qed.
(* an empty chunk before the end is taken for the end *)
Lemma lz_empty_chunk lib o n sa pf poff pf1 plen :
  lz_good lib ->
  bytes_ok n -> zlen o < 2^62 -> zlen n < 2^62 -> 0 <= poff ->
  bsdiff_lz (lz_enc lib) o n sa pf poff = Ok (pf1, plen) ->
  exists p, pf1 = fwrite_at pf poff p /\ plen = zlen p /\
    forall file ooff woff blen f (l m : list bytes) (rest : bytes),
      0 < blen -> zlen file < 2^62 -> 0 <= woff -> 0 <= ooff ->
      slice ooff (zlen o) file = o -> ooff + zlen o <= zlen file -> concat l ++ rest = p -> rest <> [] -> Forall (fun b : bytes => b <> []) l ->
      snd (lzp_all (lz_dec lib) file ooff woff blen f (l ++ [] :: m)) = Err E_DECOMPRESSOR_ERROR.
Proof.
  intros G Hn Bo Bn Hp E. destruct (lz_diff_then_patch lib o n sa pf poff pf1 plen G Hn Bo Bn Hp E) as (p & P1 & P2 & P3).
  exists p. split; [exact P1|]. split; [exact P2|]. intros file ooff woff blen f l m rest H1 H2 H3 H4 H5 H6 H7 H8 H9.
  destruct (P3 file ooff woff blen f l rest H1 H2 H3 H4 H5 H6 H7 H9) as [_ K]. specialize (K H8).
  rewrite lzp_all_chunks in *.
  assert (A : (l ++ ([] : bytes) :: m) ++ [[] : bytes] = (l ++ [[] : bytes]) ++ m ++ [[] : bytes]) by (rewrite <- !app_assoc; reflexivity).
  unfold bytes in *. rewrite A, lzp_chunks_app.
  match type of K with context [lzp_chunks ?a ?b ?c ?d ?e ?g ?h ?i] => remember (lzp_chunks a b c d e g h i) as z eqn:Z0 end.
  clear Z0.
  destruct z as [[h f1] [[]|e| |]]; cbn [snd as_z] in *; try discriminate.
  exact K.
Qed.
(* hostile patches *)
Lemma lz_hostile L l :
  lz_progresses L ->
  exists outs e, (e = Ok tt \/ e = Err E_DECOMPRESSOR_ERROR) /\ forall o ooff woff blen f,
    lzp_all L o ooff woff blen f l =
    match bspatch_chunks o ooff woff blen bs_init f outs with
    | (c, f1, Ok _) => (f1, match e with Err x => Err x | _ => Ok (bs_wpos c) end)
    | (_, f1, Err x) => (f1, Err x)
    | (_, f1, UB) => (f1, UB)
    | (_, f1, Stuck) => (f1, Stuck)
    end.
Proof.
  intros P. pose proof (lzp_all_pull L l) as Q. pose proof (lz_pulls_ends L P (l ++ [[] : bytes]) (lz_init L)) as R.
  destruct (lz_pulls L (lz_init L) (l ++ [[] : bytes])) as [[outs s1] r]. exists outs, r. split; [exact R|].
  intros o ooff woff blen f. rewrite Q.
  destruct (bspatch_chunks o ooff woff blen bs_init f outs) as [[c f1] [[]|x| |]]; try reflexivity.
  destruct R as [-> | ->]; reflexivity.
Qed.
Lemma lz_terminates L o ooff woff blen f l :
  lz_progresses L -> 0 < blen -> 0 <= woff -> zlen o < 2^63 -> snd (lzp_all L o ooff woff blen f l) <> Stuck.
Proof.
  intros P B Hw Ho. destruct (lz_hostile L l P) as (outs & e & He & Q). rewrite Q.
  pose proof (chunks_not_stuck o ooff woff blen bs_init f outs B Hw Ho bwf_init) as T.
  destruct (bspatch_chunks o ooff woff blen bs_init f outs) as [[c f1] [[]|x| |]]; cbn [snd] in *; try congruence.
  destruct He as [-> | ->]; discriminate.
Qed.
