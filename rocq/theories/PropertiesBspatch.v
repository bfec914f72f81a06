(* PropertiesBspatch.v -- patch format and patch application (lib/bspatch.c).
   Properties only. *)
From Verif Require Import Base BspatchModel BspatchSpec BspatchProofs BspatchApply BspatchSafe BspatchWitness.

(* C31: the encoder produces the documented 8-byte form and the decoder inverts
   it, for every 64-bit value except the minimum *)
Theorem C31_patch_integers x : - 2^63 < x < 2^63 ->
  offtout x = Ok (enc_int x) /\ offtin (enc_int x) = x.
Proof. exact (fun H => conj (offtout_enc x H) (offtin_enc x H)). Qed.
Print Assumptions C31_patch_integers.
Example C31_instance : offtout (-258) = Ok [2; 1; 0; 0; 0; 0; 0; 128] /\ offtin [2; 1; 0; 0; 0; 0; 0; 128] = -258.
Proof. vm_compute. auto. Qed.
Theorem C31_decode_every_byte_string b : bytes_ok b -> zlen b = 8 -> offtin b = dec_int b /\ - 2^63 < offtin b < 2^63.
Proof. exact (fun H L => conj (offtin_dec b H L) (offtin_range b H L)). Qed.
Print Assumptions C31_decode_every_byte_string.

(* C32: same result for every partition into non-empty chunks and every buffer
   size; state and output are the same too when the patch is accepted.  From
   every state the applier can be in between calls. *)
Theorem C32_chunking_partial o ooff woff blen1 blen2 c f l1 l2 :
  0 < blen1 -> 0 < blen2 -> 0 <= woff -> zlen o < 2^63 -> bwf c ->
  Forall (fun b : bytes => b <> []) l1 -> Forall (fun b : bytes => b <> []) l2 -> concat l1 = concat l2 ->
  match bspatch_chunks o ooff woff blen1 c f l1, bspatch_chunks o ooff woff blen2 c f l2 with
  | (c1, f1, r1), (c2, f2, r2) => r1 = r2 /\ (r1 = Ok tt -> c1 = c2 /\ f1 = f2)
  end.
Proof. exact (chunking_same o ooff woff blen1 blen2 c f l1 l2). Qed.
Print Assumptions C32_chunking_partial.
Example C32_instance :
  bwf bs_init /\ Forall (fun b : bytes => b <> []) [ztake 7 (enc_patch w_records); zdrop 7 (enc_patch w_records)] /\
  concat [ztake 7 (enc_patch w_records); zdrop 7 (enc_patch w_records)] = concat [enc_patch w_records] /\
  bspatch_chunks w_file 3 0 4 bs_init [] [ztake 7 (enc_patch w_records); zdrop 7 (enc_patch w_records)] =
  bspatch_chunks w_file 3 0 64 bs_init [] [enc_patch w_records].
Proof.
  split; [exact bwf_init|]. split; [repeat constructor; vm_compute; discriminate|]. vm_compute. auto.
Qed.
(* every reachable state is one of those states *)
Theorem C32_states o ooff woff blen c f pp c1 f1 :
  0 < blen -> 0 <= woff -> zlen o < 2^63 -> bwf c ->
  bspatch_write o ooff woff blen c f pp = (c1, f1, Ok tt) -> bwf c1.
Proof. exact (write_keeps_wf o ooff woff blen c f pp c1 f1). Qed.
Print Assumptions C32_states.
(* ... but on a failing patch the bytes already written depend on the chunks *)
Theorem C32_output_on_error_refuted :
  exists o p (l1 l2 : list bytes), concat l1 = p /\ concat l2 = p /\
    match bspatch_chunks o 0 0 64 bs_init [] l1, bspatch_chunks o 0 0 64 bs_init [] l2 with
    | (_, f1, r1), (_, f2, r2) => r1 = Err E_PATCH_READ_ORIGIN_ERROR /\ r2 = r1 /\ f1 <> f2
    end.
Proof. exact chunking_error_output. Qed.
Print Assumptions C32_output_on_error_refuted.
(* a failed call leaves the error state: every later call and final fail *)
Theorem C32_error_is_final o ooff woff blen c f pp c1 f1 e :
  bspatch_write o ooff woff blen c f pp = (c1, f1, Err e) ->
  bspatch_final c1 = Err (-1) /\ forall g q, bspatch_write o ooff woff blen c1 g q = (c1, g, Err (-1)).
Proof. exact (error_is_final o ooff woff blen c f pp c1 f1 e). Qed.
Print Assumptions C32_error_is_final.

(* C47: applying an encoded list of records, in any chunking (empty chunks
   too), writes exactly the specified output at the output offset and reports
   its length; the origin part may sit anywhere in the origin file *)
Theorem C47_patch_meaning o ooff woff blen part rs out f l :
  0 < blen -> zlen o < 2^62 -> 0 <= woff -> 0 <= ooff ->
  slice ooff (zlen part) o = part -> ooff + zlen part <= zlen o ->
  Forall record_ok rs -> Forall (fun r => - 2^62 < r_adj r < 2^62) rs ->
  apply_records part 0 rs = Some out -> concat l = enc_patch rs ->
  exists c1, bspatch_chunks o ooff woff blen bs_init f l = (c1, fwrite_at f woff out, Ok tt) /\
    bspatch_final c1 = Ok (zlen out).
Proof. exact (apply_patch_chunks o ooff woff blen part rs out f l). Qed.
Print Assumptions C47_patch_meaning.
Example C47_instance :
  slice 3 (zlen w_origin) w_file = w_origin /\ 3 + zlen w_origin <= zlen w_file /\
  Forall record_ok w_records /\ Forall (fun r => - 2^62 < r_adj r < 2^62) w_records /\
  apply_records w_origin 0 w_records = Some w_output /\ concat w_chunks = enc_patch w_records.
Proof.
  split; [vm_compute; reflexivity|]. split; [vm_compute; discriminate|].
  split; [apply w_records_ok|]. split; [apply w_records_ok|]. split; [exact w_apply|exact w_chunks_concat].
Qed.
(* C48: an incomplete patch is not detected *)
Theorem C48_truncated_patch_detected_refuted :
  exists o rs n, Forall record_ok rs /\ (exists out, apply_records o 0 rs = Some out) /\ n < zlen (enc_patch rs) /\
    match bspatch_chunks o 0 0 64 bs_init [] [ztake n (enc_patch rs)] with
    | (c, f, r) => r = Ok tt /\ apply_records o 0 rs <> Some f /\ bspatch_final c = Ok (zlen f)
    end.
Proof. exact truncated_accepted. Qed.
Print Assumptions C48_truncated_patch_detected_refuted.

(* C35: applying terminates on every input, from every state, in every chunking
   (with a non-empty buffer) *)
Theorem C35_terminates o ooff woff blen c f l :
  0 < blen -> 0 <= woff -> zlen o < 2^63 -> bwf c ->
  snd (bspatch_chunks o ooff woff blen c f l) <> Stuck.
Proof. exact (chunks_not_stuck o ooff woff blen c f l). Qed.
Print Assumptions C35_terminates.
(* it is free of undefined behaviour when no diff length is negative and no
   origin position leaves 64 bits *)
Theorem C35_safe_partial o ooff woff blen f p l :
  0 < blen -> 0 <= woff -> zlen o < 2^63 -> bytes_ok p -> concat l = p ->
  headers_sane ooff 0 (patch_headers (length p) p) ->
  snd (bspatch_chunks o ooff woff blen bs_init f l) <> UB.
Proof. exact (chunks_no_ub o ooff woff blen f p l). Qed.
Print Assumptions C35_safe_partial.
Example C35_instance :
  headers_sane 3 0 (patch_headers (length (enc_patch w_records)) (enc_patch w_records)) /\
  patch_headers (length (enc_patch w_records)) (enc_patch w_records) = [(3, 2, 2); (0, 0, -5); (2, 0, -1); (0, 1, 0)].
Proof. split; [vm_compute; repeat split; congruence | vm_compute; reflexivity]. Qed.
(* the full property fails: a negative length, a far move, an empty buffer *)
Theorem C35_negative_length_refuted :
  exists o p, bytes_ok p /\ snd (bspatch_write o 0 0 64 bs_init [] p) = UB.
Proof. exact negative_ub. Qed.
Print Assumptions C35_negative_length_refuted.
Theorem C35_position_overflow_refuted :
  exists o p, bytes_ok p /\ Forall (fun h => 0 <= fst (fst h)) (patch_headers (length p) p) /\
    snd (bspatch_write o 0 0 64 bs_init [] p) = UB.
Proof. exact far_ub. Qed.
Print Assumptions C35_position_overflow_refuted.
Theorem C35_empty_buffer_refuted :
  exists o rs, (exists out, apply_records o 0 rs = Some out) /\
    forall fuel, (4 < fuel)%nat -> snd (bs_loop o 0 0 0 fuel bs_init [] (enc_patch rs)) = Stuck.
Proof. exact empty_buffer_hangs. Qed.
Print Assumptions C35_empty_buffer_refuted.
