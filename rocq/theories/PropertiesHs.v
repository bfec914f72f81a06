(* PropertiesHs.v -- heatshrink compression (lib/heatshrink) and compressed
   patches (lib/bsdiff.c, lib/bspatch.c).  Properties only.  The format is
   specified in HsSpec.v. *)
From Verif Require Import Base BaseLemmas BspatchModel BspatchSpec BspatchProofs BspatchSafe BspatchWitness BsdiffModel BsdiffProofs BsdiffSafe
  HsSpec HsBits HsModel HsDecoder HsDecApi HsEncoder HsEncStep HsEncApi HsPatchModel HsPatchProofs HsPatchDec HsPatchFinal.

(* C36: take any sequence of encoder calls after which finish says DONE, with
   input S taken and output C produced; and any sequence of decoder calls that
   took exactly C.  The decoder's output so far is a prefix of S, and as soon as
   a poll says EMPTY it is S.  No call on either side is undefined or hangs. *)
Theorem C36_lossless eops dops :
  Forall eop_ok eops -> Forall (fun o => match o with DPoll n => 0 <= n | _ => True end) dops ->
  exists e S C d C2 D, e_run e_reset eops = Ok (e, S, C) /\ d_run d_reset dops = Ok (d, C2, D) /\
    (snd (e_finish e) = false -> C2 = C ->
     (exists rest, S = D ++ rest) /\
     forall osz, 0 <= osz -> exists d1 out more, d_poll osz d = Ok (d1, out, more) /\ zlen out <= osz /\
       (exists rest, S = D ++ out ++ rest) /\ (more = false -> S = D ++ out) /\ (more = true -> zlen out = osz)).
Proof.
  intros He Hd. destruct (encoder_schedules eops He) as (e & S & C & E & K).
  destruct (decoder_schedules dops Hd) as (d & C2 & D & E2 & P & Q).
  exists e, S, C, d, C2, D. split; [exact E|]. split; [exact E2|]. intros F ->.
  specialize (K F). apply compressed_decodes in K. rewrite K in P, Q. split; [exact P|exact Q].
Qed.
Print Assumptions C36_lossless.
(* every schedule can be completed with one finish and 776 polls *)
Theorem C36_encoder_completes ops polls :
  Forall eop_ok ops -> Forall (fun n => 0 < n) polls -> (776 <= length polls)%nat ->
  exists e S O O1 e1, e_run e_reset ops = Ok (e, S, O) /\
    e_run e_reset (ops ++ EFinish :: map EPoll polls) = Ok (e1, S, O ++ O1) /\
    snd (e_finish e1) = false /\ compressed (O ++ O1) S.
Proof. exact (encoder_completes ops polls). Qed.
Print Assumptions C36_encoder_completes.
(* the compressor loop of the library takes all of every input, in every
   splitting, and its output decodes to that input *)
Theorem C36_compress_everything l : Forall bytes_ok l ->
  exists e w e2 w2, hsc_writes e_reset l = Ok (e, w) /\ hsc_final 800 e = Ok (e2, w2) /\
    hs_decode (concat (w ++ w2)) = concat l.
Proof.
  intros H. destruct (compress_ok l H) as (e & w & e2 & w2 & E1 & E2 & K). exists e, w, e2, w2.
  split; [exact E1|]. split; [exact E2|]. exact (compressed_decodes _ _ K).
Qed.
Print Assumptions C36_compress_everything.
Definition w_eops : list eop := [ESink [7;7;7;7;7;7;7;1;2;3]; EPoll 1; ESink [4]; EFinish; EPoll 2; ESink [9]; EPoll 100; EPoll 100].
Definition w_code : bytes := [131; 128; 2; 192; 96; 80; 56; 32].
Example C36_instance :
  Forall eop_ok w_eops /\
  match e_run e_reset w_eops with
  | Ok (e, s, C) => s = [7;7;7;7;7;7;7;1;2;3;4] /\ C = w_code /\ snd (e_finish e) = false
  | _ => False
  end /\
  match d_run d_reset [DSink (ztake 2 w_code); DPoll 3; DSink (zdrop 2 w_code); DPoll 0; DPoll 5; DPoll 100] with
  | Ok (d, C, D) => C = w_code /\ D = [7;7;7;7;7;7;7;1;2;3;4]
  | _ => False
  end.
Proof. split; [repeat constructor; vm_compute; congruence|]. split; vm_compute; auto. Qed.

(* C37: on every byte stream and every schedule the decoder does what the
   format says (no undefined behaviour, every call returns); a poll fills the
   buffer or has delivered everything that the input so far means *)
Theorem C37_decoder_total ops :
  Forall (fun o => match o with DPoll n => 0 <= n | _ => True end) ops ->
  exists d S O, d_run d_reset ops = Ok (d, S, O) /\ (exists x, hs_decode S = O ++ x) /\
    forall osz, 0 <= osz -> exists d1 out more, d_poll osz d = Ok (d1, out, more) /\ zlen out <= osz /\
      (exists x, hs_decode S = O ++ out ++ x) /\
      (more = false -> hs_decode S = O ++ out) /\ (more = true -> zlen out = osz).
Proof. exact (decoder_schedules ops). Qed.
Print Assumptions C37_decoder_total.
(* ... after such a poll it takes up to 256 bytes and finish says DONE *)
Theorem C37_input_accepted ops d S O osz d1 out :
  Forall (fun o => match o with DPoll n => 0 <= n | _ => True end) ops -> 0 <= osz ->
  d_run d_reset ops = Ok (d, S, O) -> d_poll osz d = Ok (d1, out, false) ->
  d_finish d1 = false /\ forall b, snd (d_sink d1 b) = Z.min 256 (zlen b).
Proof.
  intros F Ho E P. destruct (d_run_ok ops d_reset [] [] [] dinv_reset F) as (d2 & S2 & O2 & P2 & E2 & I). rewrite E in E2.
  injection E2 as <- <- <-. destruct (d_poll_ok osz d _ _ _ I Ho) as (d3 & out3 & P3 & more & E3 & I3 & _ & _ & W).
  rewrite P in E3. injection E3 as <- <- <-. specialize (W eq_refl).
  split; [exact (waiting_finish _ _ _ _ I3 W)|]. intros b.
  destruct (d_sink_ok _ _ _ _ b I3) as (d4 & n & E4 & Hn & _). rewrite E4. cbn [snd]. rewrite Hn, (waiting_empty _ _ _ _ I3 W).
  f_equal.
Qed.
Print Assumptions C37_input_accepted.
(* ... and gives at most 64 bytes for every byte *)
Theorem C37_output_bound s : zlen (hs_decode s) <= 64 * zlen s.
Proof. exact (decode_bound s). Qed.
Print Assumptions C37_output_bound.
Example C37_instance : hs_decode [0;127;0;127] = zeros 256 /\ hs_decode [255; 127; 3] = [254; 252].
Proof. split; vm_compute; reflexivity. Qed.

(* C33 with heatshrink compression *)
Theorem C33_diff_then_patch_heatshrink o n sa pf poff pf1 plen :
  bytes_ok n -> zlen o < 2^62 -> zlen n < 2^62 -> 0 <= poff ->
  bsdiff_hs o n sa pf poff = Ok (pf1, plen) ->
  exists p, pf1 = fwrite_at pf poff p /\ plen = zlen p /\
    forall file ooff woff blen f l,
      0 < blen -> zlen file < 2^62 -> 0 <= woff -> 0 <= ooff ->
      slice ooff (zlen o) file = o -> ooff + zlen o <= zlen file ->
      concat l = p -> Forall (fun b : bytes => b <> []) l ->
      exists h1, hsp_chunks file ooff woff blen plen hsp_init f l = (h1, fwrite_at f woff n, Ok tt) /\
        bspatch_final (hp_bs h1) = Ok (zlen n).
Proof. exact (hs_diff_then_patch o n sa pf poff pf1 plen). Qed.
Print Assumptions C33_diff_then_patch_heatshrink.
(* compressing never fails: there is a compressed patch whenever there is one *)
Theorem C33_heatshrink_never_fails o n sa pf poff l :
  bytes_ok n -> zlen o < 2^62 -> zlen n < 2^62 -> 0 <= poff ->
  bsdiff_chunks o n sa = Ok l ->
  exists p, bsdiff_hs o n sa pf poff = Ok (fwrite_at pf poff p, zlen p) /\ compressed p (concat l).
Proof. exact (hs_diff_ok o n sa pf poff l). Qed.
Print Assumptions C33_heatshrink_never_fails.
Example C33_heatshrink_instance :
  match bsdiff_hs [1;2;3;4;5;6;7;8;9;10;11;12;13;14;15;16;17;18;19;20]
              [12;13;14;15;16;17;18;19;20;99;1;2;3;4;5;6;7;8;9;10;11;0]
              [20;0;1;2;3;4;5;6;7;8;9;10;11;12;13;14;15;16;17;18;19] [7;7] 2 with
  | Ok (f, n) => n = 29 /\ zlen f = 31
  | _ => False
  end.
Proof. vm_compute. auto. Qed.

(* C47, C35 with heatshrink compression *)
Theorem C47_patch_meaning_heatshrink o ooff woff blen part rs out f l :
  0 < blen -> zlen o < 2^62 -> 0 <= woff -> 0 <= ooff ->
  slice ooff (zlen part) o = part -> ooff + zlen part <= zlen o ->
  Forall record_ok rs -> Forall (fun r => - 2^62 < r_adj r < 2^62) rs ->
  apply_records part 0 rs = Some out -> compressed (concat l) (enc_patch rs) -> Forall (fun b : bytes => b <> []) l ->
  exists h1, hsp_chunks o ooff woff blen (zlen (concat l)) hsp_init f l = (h1, fwrite_at f woff out, Ok tt) /\
    bspatch_final (hp_bs h1) = Ok (zlen out).
Proof. exact (hs_patch_meaning o ooff woff blen part rs out f l). Qed.
Print Assumptions C47_patch_meaning_heatshrink.
(* [expected ilen 0 l]: no chunk is written after ilen bytes were taken *)
Theorem C35_terminates_heatshrink o ooff woff blen ilen f l :
  0 < blen -> 0 <= woff -> zlen o < 2^63 -> expected ilen 0 l ->
  snd (hsp_chunks o ooff woff blen ilen hsp_init f l) <> Stuck.
Proof. exact (hs_terminates o ooff woff blen ilen f l). Qed.
Print Assumptions C35_terminates_heatshrink.
Theorem C35_safe_heatshrink_partial o ooff woff blen ilen f l :
  0 < blen -> 0 <= woff -> zlen o < 2^63 -> expected ilen 0 l ->
  (let p := hs_decode (concat l) in headers_sane ooff 0 (patch_headers (length p) p)) ->
  snd (hsp_chunks o ooff woff blen ilen hsp_init f l) <> UB.
Proof. exact (hs_no_ub o ooff woff blen ilen f l). Qed.
Print Assumptions C35_safe_heatshrink_partial.
