(* BspatchWitness.v -- concrete patches *)
From Verif Require Import Base BaseLemmas BspatchModel BspatchSpec BspatchProofs BspatchApply BspatchSafe.
From Coq Require Import ZifyBool.

Definition w_origin : bytes := [10; 20; 30; 40; 50; 60; 70; 80].
Definition w_records : list precord :=
  [ mkRec [1; 0; 255] [9; 9] 2; mkRec [] [] (-5); mkRec [0; 7] [] (-1); mkRec [] [5] 0 ].
Definition w_output : bytes := [11; 20; 29; 9; 9; 10; 27; 5].
Lemma w_apply : apply_records w_origin 0 w_records = Some w_output.
Proof. vm_compute. reflexivity. Qed.
Lemma w_records_ok : Forall record_ok w_records /\ Forall (fun r => - 2^62 < r_adj r < 2^62) w_records.
Proof.
  split; repeat constructor; unfold record_ok; cbn [r_diff r_extra r_adj]; unfold bytes_ok, byte_ok;
    repeat split; repeat constructor; try (vm_compute; congruence); try lia.
Qed.
(* patch in a file at offset 3 between other bytes *)
Definition w_file : bytes := [1; 2; 3] ++ w_origin ++ [4].
Definition w_chunks : list bytes := [ztake 7 (enc_patch w_records); []; slice 7 20 (enc_patch w_records); zdrop 27 (enc_patch w_records)].
Lemma w_chunks_concat : concat w_chunks = enc_patch w_records.
Proof. vm_compute. reflexivity. Qed.

(* a diff longer than the origin: how much is written before the error depends
   on the chunks *)
Definition w_short : bytes := enc_patch [mkRec [1; 1; 1] [] 0].
Lemma w_short_once :
  match bspatch_chunks [7; 8] 0 0 64 bs_init [] [w_short] with (_, f, r) => f = [] /\ r = Err E_PATCH_READ_ORIGIN_ERROR end.
Proof. vm_compute. auto. Qed.
Lemma w_short_split :
  match bspatch_chunks [7; 8] 0 0 64 bs_init [] [ztake 25 w_short; zdrop 25 w_short] with (_, f, r) => f = [8] /\ r = Err E_PATCH_READ_ORIGIN_ERROR end.
Proof. vm_compute. auto. Qed.
(* hostile control data *)
Definition w_negative : bytes := enc_int (-1) ++ enc_int 0 ++ enc_int 0 ++ [0].
Lemma w_negative_ub : bout (bspatch_write w_origin 0 0 64 bs_init [] w_negative) = UB.
Proof. vm_compute. reflexivity. Qed.
Definition w_far : bytes := enc_int 0 ++ enc_int 0 ++ enc_int (2^63 - 1) ++ enc_int 0 ++ enc_int 0 ++ enc_int (2^63 - 1) ++ [0].
Lemma w_far_ub : bout (bspatch_write w_origin 0 0 64 bs_init [] w_far) = UB.
Proof.
  rewrite write_brun; [vm_compute; reflexivity|lia|lia|vm_compute; reflexivity|exact bwf_init|vm_compute; discriminate].
Qed.
Lemma w_zero_buffer fuel : (4 < fuel)%nat ->
  snd (bs_loop w_origin 0 0 0 fuel bs_init [] (enc_patch w_records)) = Stuck.
Proof.
  intros H. do 3 (destruct fuel as [|fuel]; [lia|]).
  (* control block, then the diff state which never advances *)
  set (p := enc_patch w_records).
  cbn [bs_loop bs_init bs_state bs_ctrl].
  change (zlen (@nil Z) <? 24) with true. cbv iota.
  change (Z.min (zlen p) (24 - zlen (@nil Z))) with 24.
  change (zlen ([] ++ ztake 24 p) =? 24) with true. cbv iota.
  cbn [bs_loop bs_init bs_state bs_ctrl bs_opos bs_wpos bs_diff bs_extra bs_adj].
  change (zlen (zdrop 24 p) >? 0) with true. cbv iota.
  match goal with |- snd (match ?st with _ => _ end) = _ => idtac | |- _ => idtac end.
  match goal with |- snd ?t = _ =>
    let H := fresh in assert (H : t = bs_loop w_origin 0 0 0 (S fuel)
       (mkBs BDiff ([] ++ ztake 24 p) (offtin (slice 0 8 ([] ++ ztake 24 p))) (offtin (slice 8 8 ([] ++ ztake 24 p)))
          (offtin (slice 16 8 ([] ++ ztake 24 p))) 0 0) [] (zdrop 24 p)) by reflexivity; rewrite H end.
  rewrite zero_buffer_loops; [reflexivity|reflexivity|vm_compute; reflexivity|vm_compute; discriminate|vm_compute; split; congruence].
Qed.
(* a patch cut in the middle of a record is accepted by final *)
Lemma w_truncated :
  match bspatch_chunks w_origin 0 0 64 bs_init [] [ztake 26 (enc_patch w_records)] with
  | (c, f, r) => r = Ok tt /\ f = [11; 20] /\ bspatch_final c = Ok 2
  end.
Proof. vm_compute. auto. Qed.
Lemma chunking_error_output :
  exists o p (l1 l2 : list bytes), concat l1 = p /\ concat l2 = p /\
    match bspatch_chunks o 0 0 64 bs_init [] l1, bspatch_chunks o 0 0 64 bs_init [] l2 with
    | (_, f1, r1), (_, f2, r2) => r1 = Err E_PATCH_READ_ORIGIN_ERROR /\ r2 = r1 /\ f1 <> f2
    end.
Proof.
  exists [7; 8], w_short, [w_short], [ztake 25 w_short; zdrop 25 w_short].
  split; [vm_compute; reflexivity|]. split; [vm_compute; reflexivity|].
  vm_compute. repeat split; discriminate.
Qed.
Lemma truncated_accepted :
  exists o rs n, Forall record_ok rs /\ (exists out, apply_records o 0 rs = Some out) /\ n < zlen (enc_patch rs) /\
    match bspatch_chunks o 0 0 64 bs_init [] [ztake n (enc_patch rs)] with
    | (c, f, r) => r = Ok tt /\ apply_records o 0 rs <> Some f /\ bspatch_final c = Ok (zlen f)
    end.
Proof.
  exists w_origin, w_records, 26. split; [apply w_records_ok|]. split; [eexists; exact w_apply|].
  split; [vm_compute; reflexivity|]. vm_compute. repeat split; discriminate.
Qed.
Lemma negative_ub : exists o p, bytes_ok p /\ snd (bspatch_write o 0 0 64 bs_init [] p) = UB.
Proof.
  exists w_origin, w_negative. split; [|vm_compute; reflexivity].
  unfold w_negative. rewrite !bytes_ok_app. repeat split; try (apply enc_int_ok; lia). repeat constructor.
  all: vm_compute; congruence.
Qed.
Lemma far_ub :
  exists o p, bytes_ok p /\ Forall (fun h => 0 <= fst (fst h)) (patch_headers (length p) p) /\
    snd (bspatch_write o 0 0 64 bs_init [] p) = UB.
Proof.
  exists w_origin, w_far. split; [|split; [|]].
  3:{ pose proof w_far_ub as U. destruct (bspatch_write w_origin 0 0 64 bs_init [] w_far) as [[c1 f1] [[]|e| |]];
      cbn [bout] in U; try discriminate. reflexivity. }
  - unfold w_far. rewrite !bytes_ok_app. repeat split; try (apply enc_int_ok; lia). repeat constructor.
    all: vm_compute; congruence.
  - assert (E : patch_headers (length w_far) w_far = [(0, 0, 2^63 - 1); (0, 0, 2^63 - 1)]) by (vm_compute; reflexivity).
    rewrite E. repeat constructor; vm_compute; congruence.
Qed.
Lemma empty_buffer_hangs :
  exists o rs, (exists out, apply_records o 0 rs = Some out) /\
    forall fuel, (4 < fuel)%nat -> snd (bs_loop o 0 0 0 fuel bs_init [] (enc_patch rs)) = Stuck.
Proof. exists w_origin, w_records. split; [eexists; exact w_apply|]. exact w_zero_buffer. Qed.
