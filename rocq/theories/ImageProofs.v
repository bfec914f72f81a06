(* ImageProofs.v -- the tool writes exactly [image] *)
From Coq Require Import String.
From Verif Require Import BaseLemmas HeaderModel HeaderSpec HeaderHistory CodecProofs PartProofs MetaProofs CrcModel CrcProofs HashModel
  MerkleModel MerkleSpec MerkleApi VerifyModel VerifySpec VerifyProofs VerifySign VerifyWitness PkgModel PkgSpec PkgProofs PkgAdd PkgDelete PkgHistory PkgApi PkgTrees PkgMerkle
  TransportFile UtilModel PkgForget PkgCanon CliModel CliSpec CliMeta CliArgs CliStep CliProofs CliSign ImageSpec.
Local Open Scope Z_scope.
Local Open Scope list_scope.

(* ---- tables and values ---- *)
Fixpoint meta_table (off : Z) (ms : list mentry) : list metah :=
  match ms with
  | [] => []
  | e :: r => mkMeta (e_id e) (zlen (e_val e)) off (e_ref e) (zeros 4) :: meta_table (off + align8 (zlen (e_val e))) r
  end.
Fixpoint part_table (pos : Z) (fs : list fentry) : list parth :=
  match fs with
  | [] => []
  | f :: r => mkPart (f_id f) (zlen (f_data f)) pos 0 (padding (zlen (f_data f))) (f_flags f) 0 :: part_table (pos + zlen (file_stored f)) r
  end.
Record exact_meta (h : header) (live : list mentry) : Prop := {
  em_table : h_meta h = meta_table 0 live ++ repeat zero_meta (32 - length live);
  em_values : h_metadata h = zero_pad 1920 (meta_values live) }.

Lemma length_meta_table ms : forall off, length (meta_table off ms) = length ms.
Proof. induction ms as [|e ms IH]; intros off; [reflexivity|]. cbn [meta_table length]. now rewrite IH. Qed.
Lemma meta_table_app a b : forall off, meta_table off (a ++ b) = meta_table off a ++ meta_table (off + meta_end a) b.
Proof.
  induction a as [|e a IH]; intros off; cbn [app meta_table meta_end]; [now rewrite Z.add_0_r|]. rewrite IH, Z.add_assoc. reflexivity.
Qed.
Lemma zlen_zero_pad n b : zlen b <= n -> zlen (zero_pad n b) = n.
Proof. intros H. unfold zero_pad. rewrite zlen_app, zlen_zeros. lia. Qed.
Lemma meta_values_app a b : meta_values (a ++ b) = meta_values a ++ meta_values b.
Proof. unfold meta_values. rewrite map_app, concat_app. reflexivity. Qed.
Lemma meta_values_cons e b : meta_values (e :: b) = zero_pad (align8 (zlen (e_val e))) (e_val e) ++ meta_values b.
Proof. reflexivity. Qed.
Lemma zlen_meta_values ms : zlen (meta_values ms) = meta_end ms.
Proof.
  induction ms as [|e ms IH]; [reflexivity|]. rewrite meta_values_cons, zlen_app, IH. cbn [meta_end].
  rewrite zlen_zero_pad; [reflexivity|]. apply align8_ge.
Qed.
Lemma flat_zero_meta n : flat_map enc_meta (repeat zero_meta n) = zeros (16 * Z.of_nat n).
Proof.
  induction n as [|n IH]; [reflexivity|]. cbn [repeat flat_map]. rewrite IH. change (enc_meta zero_meta) with (zeros 16).
  rewrite zeros_app by lia. f_equal. lia.
Qed.
Lemma flat_zero_part n : flat_map enc_part (repeat zero_part n) = zeros (32 * Z.of_nat n).
Proof.
  induction n as [|n IH]; [reflexivity|]. cbn [repeat flat_map]. rewrite IH. change (enc_part zero_part) with (zeros 32).
  rewrite zeros_app by lia. f_equal. lia.
Qed.
Lemma flat_meta_table ms : forall off, flat_map enc_meta (meta_table off ms) = meta_rows off ms.
Proof.
  induction ms as [|e ms IH]; intros off; [reflexivity|]. cbn [meta_table flat_map meta_rows]. rewrite IH. unfold enc_meta.
  cbn [m_id m_size m_offset m_ref m_pad]. now rewrite <- !app_assoc.
Qed.
Lemma flat_part_table fs : forall pos, flat_map enc_part (part_table pos fs) = part_rows pos fs.
Proof.
  induction fs as [|f fs IH]; intros pos; [reflexivity|]. cbn [part_table flat_map part_rows]. rewrite IH. unfold enc_part.
  cbn [p_id p_size p_offset p_transport_size p_pad_bytes p_flags p_pad]. change (le 8 0) with (zeros 8). now rewrite <- !app_assoc.
Qed.
Lemma zlen_meta_rows ms : forall off, zlen (meta_rows off ms) = 16 * zlen ms.
Proof.
  induction ms as [|e ms IH]; intros off; [reflexivity|]. cbn [meta_rows]. rewrite !zlen_app, IH, !zlen_le, zlen_zeros, zlen_cons. lia.
Qed.
Lemma zlen_part_rows fs : forall pos, zlen (part_rows pos fs) = 32 * zlen fs.
Proof.
  induction fs as [|f fs IH]; intros pos; [reflexivity|]. cbn [part_rows].
  rewrite !zlen_app, IH, !zlen_le, zlen_zeros, (zlen_cons (f_flags f)), (zlen_cons 0), (zlen_cons f). change (zlen (@nil Z)) with 0. lia.
Qed.

(* ---- a file determines its contents ---- *)
Lemma layout_unique md : forall l1 l2 slots off, layout off slots l1 -> layout off slots l2 ->
  Forall (fun e => e_id e <> 0) l1 -> Forall (fun e => e_id e <> 0) l2 -> data_ok off md l1 -> data_ok off md l2 -> l1 = l2.
Proof.
  induction l1 as [|e1 l1 IH]; intros [|e2 l2] slots off L1 L2 N1 N2 D1 D2; cbn [layout data_ok] in *; [reflexivity| | |].
  - destruct slots as [|m s]; [destruct L2|]. apply Forall_cons_iff in L1 as [L1 _]. apply Forall_cons_iff in N2 as [N2 _].
    destruct L2 as [L2 _]. congruence.
  - destruct slots as [|m s]; [destruct L1|]. apply Forall_cons_iff in L2 as [L2 _]. apply Forall_cons_iff in N1 as [N1 _].
    destruct L1 as [L1 _]. congruence.
  - destruct slots as [|m s]; [destruct L1|]. destruct L1 as (A1 & A2 & A3 & A4 & A5), L2 as (B1 & B2 & B3 & B4 & B5).
    destruct D1 as (_ & D1 & D1'), D2 as (_ & D2 & D2'). assert (Ez : zlen (e_val e1) = zlen (e_val e2)) by congruence.
    assert (Ee : e1 = e2).
    { destruct e1 as [i1 r1 v1], e2 as [i2 r2 v2]. cbn [e_id e_ref e_val] in *. rewrite Ez in D1. f_equal; congruence. }
    subst e2. f_equal. apply Forall_cons_iff in N1 as [_ N1]. apply Forall_cons_iff in N2 as [_ N2]. eapply IH; eauto.
Qed.
Lemma metas_unique slots md l1 l2 : metas_are slots md l1 -> metas_are slots md l2 -> l1 = l2.
Proof.
  intros H1 H2. apply metas_are_iff in H1 as (_ & _ & _ & N1 & L1 & D1). apply metas_are_iff in H2 as (_ & _ & _ & N2 & L2 & D2).
  eapply layout_unique; eauto.
Qed.
Definition header_of (f : bytes) : header := dec_header (ztake 4096 f).
Lemma header_of_enc h (r : bytes) : wf_header h -> header_of (enc_header h ++ r) = h.
Proof.
  intros W. unfold header_of. rewrite ztake_app_l by (rewrite zlen_enc_header by exact W; lia).
  rewrite ztake_all by (rewrite zlen_enc_header by exact W; lia). now apply dec_enc_header.
Qed.
Lemma st_header sha p w : st sha p w -> header_of (pk_file p) = pk_header p.
Proof. intros [[(es & H & _) _ _ _ _ _] _ _]. rewrite (ho_file _ _ H). apply header_of_enc. apply (ho_wf _ _ H). Qed.
Lemma header_of_write h f : wf_header h -> 4096 <= zlen f -> header_of (fwrite_at f 0 (enc_header h)) = h.
Proof. intros W L. rewrite fwrite_0. now apply header_of_enc. Qed.
