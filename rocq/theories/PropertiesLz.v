(* PropertiesLz.v -- LZMA-compressed patches (lib/bsdiff.c, lib/bspatch.c with
   BPAK_CONFIG_LZMA).  [lz_good]: the contract assumed of liblzma (LzSpec.v). *)
From Verif Require Import Base BaseLemmas BspatchModel BspatchSpec BspatchProofs BspatchSafe BsdiffModel BsdiffProofs LzModel LzSpec LzFinal LzWitness.

(* C33 with LZMA: what differencing wrote, fed in any non-empty chunks and
   finished, writes exactly the target *)
Theorem C33_diff_then_patch_lzma lib o n sa pf poff pf1 plen :
  lz_good lib ->
  bytes_ok n -> zlen o < 2^62 -> zlen n < 2^62 -> 0 <= poff ->
  bsdiff_lz (lz_enc lib) o n sa pf poff = Ok (pf1, plen) ->
  exists p, pf1 = fwrite_at pf poff p /\ plen = zlen p /\
    forall file ooff woff blen f (l : list bytes),
      0 < blen -> zlen file < 2^62 -> 0 <= woff -> 0 <= ooff ->
      slice ooff (zlen o) file = o -> ooff + zlen o <= zlen file -> concat l = p -> Forall (fun b : bytes => b <> []) l ->
      lzp_all (lz_dec lib) file ooff woff blen f l = (fwrite_at f woff n, Ok (zlen n)).
Proof.
  intros G Hn Bo Bn Hp E. destruct (lz_diff_then_patch lib o n sa pf poff pf1 plen G Hn Bo Bn Hp E) as (p & P1 & P2 & P3).
  exists p. split; [exact P1|]. split; [exact P2|]. intros file ooff woff blen f l H1 H2 H3 H4 H5 H6 H7 H8.
  destruct (P3 file ooff woff blen f l [] H1 H2 H3 H4 H5 H6) as [K _]; auto. rewrite app_nil_r. exact H7.
Qed.
Print Assumptions C33_diff_then_patch_lzma.
(* compressing never fails *)
Theorem C33_lzma_never_fails lib o n sa pf poff l :
  lz_good lib ->
  bytes_ok n -> zlen o < 2^62 -> zlen n < 2^62 -> 0 <= poff ->
  bsdiff_chunks o n sa = Ok l ->
  exists p, bsdiff_lz (lz_enc lib) o n sa pf poff = Ok (fwrite_at pf poff p, zlen p) /\ bytes_ok p.
Proof.
  intros (stream & HE & _) Hn Bo Bn Hp E. destruct (lz_diff_ok _ stream o n sa pf poff l HE Hn Bo Bn Hp E) as (p & A & _ & B).
  exists p. auto.
Qed.
Print Assumptions C33_lzma_never_fails.
(* C48 with LZMA: unlike the other two formats, an incomplete patch is noticed:
   fed any proper prefix, bpak_bspatch_final reports an error *)
Theorem C48_truncated_lzma_patch_detected lib o n sa pf poff pf1 plen :
  lz_good lib ->
  bytes_ok n -> zlen o < 2^62 -> zlen n < 2^62 -> 0 <= poff ->
  bsdiff_lz (lz_enc lib) o n sa pf poff = Ok (pf1, plen) ->
  exists p, pf1 = fwrite_at pf poff p /\ plen = zlen p /\
    forall file ooff woff blen f (l : list bytes) (rest : bytes),
      0 < blen -> zlen file < 2^62 -> 0 <= woff -> 0 <= ooff ->
      slice ooff (zlen o) file = o -> ooff + zlen o <= zlen file ->
      concat l ++ rest = p -> rest <> [] -> Forall (fun b : bytes => b <> []) l ->
      snd (lzp_all (lz_dec lib) file ooff woff blen f l) = Err E_DECOMPRESSOR_ERROR.
Proof.
  intros G Hn Bo Bn Hp E. destruct (lz_diff_then_patch lib o n sa pf poff pf1 plen G Hn Bo Bn Hp E) as (p & P1 & P2 & P3).
  exists p. split; [exact P1|]. split; [exact P2|]. intros file ooff woff blen f l rest H1 H2 H3 H4 H5 H6 H7 H8 H9.
  destruct (P3 file ooff woff blen f l rest H1 H2 H3 H4 H5 H6) as [_ K]; auto.
Qed.
Print Assumptions C48_truncated_lzma_patch_detected.
(* C32 with LZMA: the chunks must be non-empty.  An empty chunk in front of the
   last byte is taken for the end of the patch: the patch always fails *)
Theorem C32_lzma_empty_chunk_fails lib o n sa pf poff pf1 plen :
  lz_good lib ->
  bytes_ok n -> zlen o < 2^62 -> zlen n < 2^62 -> 0 <= poff ->
  bsdiff_lz (lz_enc lib) o n sa pf poff = Ok (pf1, plen) ->
  exists p, pf1 = fwrite_at pf poff p /\ plen = zlen p /\
    forall file ooff woff blen f (l m : list bytes) (rest : bytes),
      0 < blen -> zlen file < 2^62 -> 0 <= woff -> 0 <= ooff ->
      slice ooff (zlen o) file = o -> ooff + zlen o <= zlen file ->
      concat l ++ rest = p -> rest <> [] -> Forall (fun b : bytes => b <> []) l ->
      snd (lzp_all (lz_dec lib) file ooff woff blen f (l ++ [] :: m)) = Err E_DECOMPRESSOR_ERROR.
Proof. exact (lz_empty_chunk lib o n sa pf poff pf1 plen). Qed.
Print Assumptions C32_lzma_empty_chunk_fails.
Definition w_old : bytes := [1;2;3;4;5;6;7;8;9;10;11;12;13;14;15;16;17;18;19;20].
Definition w_new : bytes := [12;13;14;15;16;17;18;19;20;99;1;2;3;4;5;6;7;8;9;10;11;0].
Definition w_sa : list Z := [20;0;1;2;3;4;5;6;7;8;9;10;11;12;13;14;15;16;17;18;19].
Example C33_lzma_instance :
  lz_good toy_lz /\
  match bsdiff_lz (lz_enc toy_lz) w_old w_new w_sa [7;7] 2 with
  | Ok (f, n) => n = 189 /\ zlen f = 191 /\
      lzp_all (lz_dec toy_lz) w_old 0 0 64 [] [slice 2 100 f; slice 102 89 f] = (w_new, Ok 22) /\
      snd (lzp_all (lz_dec toy_lz) w_old 0 0 64 [] [slice 2 188 f]) = Err E_DECOMPRESSOR_ERROR /\
      snd (lzp_all (lz_dec toy_lz) w_old 0 0 64 [] [slice 2 100 f; []; slice 102 89 f]) = Err E_DECOMPRESSOR_ERROR
  | _ => False
  end.
Proof. split; [exact toy_lz_good|]. vm_compute. repeat split; reflexivity. Qed.

(* C35 with LZMA: whatever the patch contains, applying it terminates, provided
   the library makes progress or reports an error *)
Theorem C35_terminates_lzma L o ooff woff blen f l :
  lz_progresses L -> 0 < blen -> 0 <= woff -> zlen o < 2^63 ->
  snd (lzp_all L o ooff woff blen f l) <> Stuck.
Proof. exact (lz_terminates L o ooff woff blen f l). Qed.
Print Assumptions C35_terminates_lzma.
(* ... and behaves like some plain patch, possibly followed by a decompressor
   error: nothing is undefined that is not undefined for plain patches *)
Theorem C35_lzma_as_plain L l :
  lz_progresses L ->
  exists (outs : list bytes) e, (e = Ok tt \/ e = Err E_DECOMPRESSOR_ERROR) /\ forall o ooff woff blen f,
    lzp_all L o ooff woff blen f l =
    match bspatch_chunks o ooff woff blen bs_init f outs with
    | (c, f1, Ok _) => (f1, match e with Err x => Err x | _ => Ok (bs_wpos c) end)
    | (_, f1, Err x) => (f1, Err x)
    | (_, f1, UB) => (f1, UB)
    | (_, f1, Stuck) => (f1, Stuck)
    end.
Proof. exact (lz_hostile L l). Qed.
Print Assumptions C35_lzma_as_plain.
Example C35_lzma_instance : lz_progresses toy_dec /\
  snd (lzp_all toy_dec w_old 0 0 64 [] [[1; 7; 1]; [200; 9]; [3]]) = Err E_DECOMPRESSOR_ERROR.
Proof. split; [exact toy_progresses|vm_compute; reflexivity]. Qed.
