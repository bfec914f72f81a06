(* VerifyWitness.v -- concrete packages for the examples and counterexamples *)
From Verif Require Import BaseLemmas HeaderModel HeaderSpec HashModel CodecProofs VerifyModel VerifySpec VerifyProofs
  VerifySign MerkleApi.

Definition toy_sig : sigscheme Z :=
  mkSig (fun s d k key => Ok (bytes_eqb s ([u8 key; k] ++ d)))
        (fun d k key => Ok ([u8 key; k] ++ d)).
Lemma toy_sig_binding : binding_scheme toy_sig.
Proof.
  intros s d1 k1 d2 k2 key H1 H2. cbn [toy_sig sg_verify] in *. injection H1 as H1. injection H2 as H2.
  apply bytes_eqb_eq in H1, H2. rewrite H1 in H2. cbn [app] in H2. injection H2 as -> ->. auto.
Qed.
Lemma toy_sig_correct : correct_scheme toy_sig (fun k => k).
Proof.
  intros d k key s Od Ld Hk H. cbn [toy_sig sg_sign sg_verify] in *. injection H as <-.
  assert (k = 1 \/ k = 2 \/ k = 3) as Hk3.
  { unfold hash_supported, HASH_SHA256, HASH_SHA384, HASH_SHA512 in Hk. lia. }
  pose proof (digest_len_le k). split; [|split].
  - rewrite !zlen_cons. lia.
  - apply bytes_ok_cons. split; [red; unfold u8; lia|]. apply bytes_ok_cons. split; [red; lia|exact Od].
  - rewrite bytes_eqb_refl. reflexivity.
Qed.

(* three parts: 1000+24 bytes, 500+12 bytes excluded from the hash, 512 bytes
   in transport form *)
Definition vw_parts : list parth :=
  [mkPart 10 1000 0 0 24 0 0; mkPart 11 500 0 0 12 1 0; mkPart 12 9999 0 512 7 2 0].
Definition vw_header : header := with_parts init_header (vw_parts ++ repeat zero_part 29).
Definition vw_file : bytes :=
  enc_header vw_header ++ repeat 1 (Z.to_nat 1024) ++ repeat 2 (Z.to_nat 512) ++ repeat 3 (Z.to_nat 512).
Definition vw_pkg : pkg := mkPkg vw_header vw_file.

Ltac wf_vm := constructor; vm_compute; repeat (constructor; try (intuition congruence)).
Lemma vw_parts_wf : Forall wf_part (h_parts vw_header).
Proof.
  cbn [vw_header with_parts h_parts]. apply Forall_app. split.
  - repeat constructor; cbn; lia.
  - apply Forall_forall. intros x Hx. apply repeat_spec in Hx. subst. repeat split; cbn; lia.
Qed.
Lemma wf_with_parts h l : wf_header h -> length l = 32%nat -> Forall wf_part l -> wf_header (with_parts h l).
Proof.
  intros W. destruct W. constructor; cbn [with_parts h_magic h_pad0 h_meta h_parts h_metadata
    h_hash_kind h_signature_kind h_alignment h_payload_hash h_key_id h_keystore_id h_pad1 h_signature h_signature_sz]; auto.
Qed.
Lemma vw_header_wf : wf_header vw_header.
Proof. apply wf_with_parts; [apply wf_init_header|reflexivity|exact vw_parts_wf]. Qed.
Lemma vw_sizes_ok : sizes_ok (h_parts vw_header).
Proof.
  unfold sizes_ok. apply Forall_forall. intros p Hp. split.
  - pose proof vw_parts_wf as F. rewrite Forall_forall in F. auto.
  - cbn [vw_header with_parts h_parts] in Hp. apply in_app_or in Hp as [Hp|Hp].
    + cbn in Hp. destruct Hp as [<-|[<-|[<-|[]]]]; reflexivity.
    + apply repeat_spec in Hp. subst. reflexivity.
Qed.
Lemma vw_parts_are : parts_are (h_parts vw_header) vw_parts.
Proof.
  exists (repeat zero_part 29). split; [reflexivity|]. split; [reflexivity|]. split; [|split].
  - repeat constructor; discriminate.
  - repeat constructor; cbn; intuition discriminate.
  - apply Forall_forall. intros x Hx. apply repeat_spec in Hx. subst. reflexivity.
Qed.
Lemma vw_present : payload_present vw_file 4096 (h_parts vw_header).
Proof. apply present_iff. vm_compute. reflexivity. Qed.

(* a table with a hole: bpak_part_offset and the payload hash disagree on
   where the last part is *)
Definition hole_header : header :=
  with_parts init_header ([mkPart 10 512 0 0 0 0 0; zero_part; mkPart 11 512 0 0 0 0 0; mkPart 12 512 0 0 0 0 0]
                          ++ repeat zero_part 28).
Definition hole_file (b : Z) : bytes := enc_header hole_header ++ repeat 1 (Z.to_nat 1024) ++ repeat b (Z.to_nat 512).
Lemma hole_disagrees :
  valid_header hole_header = Ok tt /\
  (forall p, In p (used (h_parts hole_header)) ->
     slice (part_offset hole_header p) (part_size p) (hole_file 5) =
     slice (part_offset hole_header p) (part_size p) (hole_file 6)) /\
  hashed_payload (hole_file 5) 4096 (h_parts hole_header) <> hashed_payload (hole_file 6) 4096 (h_parts hole_header) /\
  compute_payload_hash toy_sha hole_header (file_rd (hole_file 5)) 4096 64 <>
  compute_payload_hash toy_sha hole_header (file_rd (hole_file 6)) 4096 64.
Proof.
  split; [vm_compute; reflexivity|]. split.
  - intros p Hp. vm_compute in Hp. destruct Hp as [<-|[<-|[<-|[]]]]; vm_compute; reflexivity.
  - split; intros E; vm_compute in E; discriminate.
Qed.
