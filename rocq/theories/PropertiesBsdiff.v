(* PropertiesBsdiff.v -- patch generation (lib/bsdiff.c).  Properties only. *)
From Verif Require Import Base BaseLemmas BspatchModel BspatchSpec BspatchProofs BspatchApply BsdiffModel BsdiffProofs BsdiffSafe.

(* C33, without compression: whatever the suffix array holds, if differencing
   finishes then the bytes it wrote are a patch which, applied in any chunking
   to any file holding the origin, writes exactly the target -- even where a
   match of 2 GiB or more makes matchlen's int32_t result wrap. *)
Theorem C33_diff_then_patch_plain o n sa pf poff pf1 plen :
  bytes_ok n -> zlen o < 2^62 -> zlen n < 2^62 -> 0 <= poff ->
  bsdiff_none o n sa pf poff = Ok (pf1, plen) ->
  exists p, pf1 = fwrite_at pf poff p /\ plen = zlen p /\
    forall file ooff woff blen f l,
      0 < blen -> zlen file < 2^62 -> 0 <= woff -> 0 <= ooff ->
      slice ooff (zlen o) file = o -> ooff + zlen o <= zlen file -> concat l = p ->
      exists c1, bspatch_chunks file ooff woff blen bs_init f l = (c1, fwrite_at f woff n, Ok tt) /\
        bspatch_final c1 = Ok (zlen n).
Proof. exact (diff_then_patch o n sa pf poff pf1 plen). Qed.
Print Assumptions C33_diff_then_patch_plain.
(* the buffers handed to the compressor are the encoding of records that
   rebuild the target *)
Theorem C33_patch_describes_target o n sa l :
  bytes_ok n -> zlen o < 2^62 -> zlen n < 2^62 ->
  bsdiff_chunks o n sa = Ok l ->
  exists rs, concat l = enc_patch rs /\ Forall record_ok rs /\ Forall adj_ok rs /\ apply_records o 0 rs = Some n.
Proof. exact (fun Hn Bo Bn => bsdiff_chunks_ok o n Hn Bo Bn sa l). Qed.
Print Assumptions C33_patch_describes_target.
Example C33_instance :
  bsdiff_none [1;2;3;4;5;6;7;8;9;10;11;12;13;14;15;16;17;18;19;20]
              [12;13;14;15;16;17;18;19;20;99;1;2;3;4;5;6;7;8;9;10;11;0]
              [20;0;1;2;3;4;5;6;7;8;9;10;11;12;13;14;15;16;17;18;19] [7;7] 2 =
  Ok ([7;7] ++ enc_patch [ mkRec [] [] 11; mkRec (zeros 9) [99] (-20); mkRec (zeros 11) [0] (-11) ], 94).
Proof. vm_compute. reflexivity. Qed.

(* C34: the code allocates as many suffix array entries as the origin has
   bytes and reads one more: undefined behaviour for every origin, whenever the
   target starts with a byte larger than all origin bytes *)
Theorem C34_reads_past_suffix_array_refuted o sa b n :
  zlen sa = zlen o -> Forall (fun p => 0 <= p < zlen o) sa -> Forall (fun x => x < b) o ->
  bsdiff_chunks o (b :: n) sa = UB.
Proof. exact (fun L F => bsdiff_bigger_byte o sa b n (conj L F)). Qed.
Print Assumptions C34_reads_past_suffix_array_refuted.
(* [1; 0; 2] is the suffix array of 2,1,3 *)
Example C34_refuted_instance :
  zlen [1; 0; 2] = zlen [2; 1; 3] /\ bsdiff_chunks [2; 1; 3] [4; 2; 1] [1; 0; 2] = UB.
Proof. vm_compute. auto. Qed.
(* otherwise: every read is inside the arrays and differencing terminates when
   no target suffix compares greater than the origin suffix of the last entry *)
Theorem C34_reads_inside_partial o n sa :
  bytes_ok n -> 2 <= zlen o < 2^62 -> zlen n < 2^62 -> Z.min (zlen o) (zlen n) < 2^31 ->
  zlen sa = zlen o -> Forall (fun p => 0 <= p < zlen o) sa ->
  (forall s, 0 <= s < zlen n -> memcmp_lt (zdrop (znth 0 (zlen o - 1) sa) o) (zdrop s n) = false) ->
  exists l, bsdiff_chunks o n sa = Ok l.
Proof. exact (fun Hn Bo Bn Sm L F => bsdiff_in_real o n sa Hn Bo Bn Sm (conj L F)). Qed.
Print Assumptions C34_reads_inside_partial.
Example C34_instance :
  Forall (fun p => 0 <= p < zlen [2; 1; 3]) [1; 0; 2] /\
  (forall s, 0 <= s < zlen [2; 1; 1; 0] -> memcmp_lt (zdrop (znth 0 (zlen [2; 1; 3] - 1) [1; 0; 2]) [2; 1; 3]) (zdrop s [2; 1; 1; 0]) = false).
Proof.
  split; [repeat constructor; vm_compute; congruence|].
  intros s Hs. change (zlen [2; 1; 1; 0]) with 4 in Hs.
  assert (D : s = 0 \/ s = 1 \/ s = 2 \/ s = 3) by lia.
  destruct D as [-> |[-> |[-> | ->]]]; vm_compute; reflexivity.
Qed.
(* ... and always with one entry more, in [0, origin length] *)
Theorem C34_one_more_entry_suffices o n sa :
  bytes_ok n -> zlen o < 2^62 -> zlen n < 2^62 -> Z.min (zlen o) (zlen n) < 2^31 ->
  zlen sa = zlen o + 1 -> Forall (fun p => 0 <= p <= zlen o) sa ->
  exists l, bsdiff_chunks o n sa = Ok l.
Proof. exact (fun Hn Bo Bn Sm L F => bsdiff_in_good o n sa Hn Bo Bn Sm (conj L F)). Qed.
Print Assumptions C34_one_more_entry_suffices.
