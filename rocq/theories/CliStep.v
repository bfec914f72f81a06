(* CliStep.v -- package operations and header rewrites seen from the command line *)
From Coq Require Import String.
From Verif Require Import BaseLemmas HeaderModel HeaderSpec HeaderHistory CodecProofs PartProofs MetaProofs CrcModel CrcProofs HashModel
  MerkleModel MerkleSpec MerkleApi VerifyModel VerifySpec VerifyProofs VerifySign VerifyWitness PkgModel PkgSpec PkgProofs PkgAdd PkgDelete PkgHistory PkgApi PkgTrees PkgMerkle
  TransportFile UtilModel CliModel CliSpec CliMeta CliArgs.
Local Open Scope Z_scope.

(* ---- metadata and settings under the package operations ---- *)
Definition op_metas (fs : list fentry) (o : pkg_op) (live : list mentry) : list mentry :=
  match o with
  | ODel id true => if existsb (fun f => f_id f =? id) fs then purge (fun e => e_ref e =? id) 1920 live else live
  | ODelAll true => purge (fun e => negb (e_ref e =? 0)) 1920 live
  | _ => live
  end.
Lemma sbp_sbpm h h' : same_besides_parts h h' -> same_besides_parts_meta h h'.
Proof. unfold same_besides_parts, same_besides_parts_meta. intros ->. destruct h; reflexivity. Qed.
Lemma sbpm_refl h : same_besides_parts_meta h h.
Proof. destruct h; reflexivity. Qed.
Lemma sbp_metas h h' : same_besides_parts h h' -> h_meta h' = h_meta h /\ h_metadata h' = h_metadata h.
Proof. unfold same_besides_parts. intros ->. destruct h; auto. Qed.

Lemma pkg_step_frame sha p fs o live : good_hash sha -> pkg_inv sha p fs -> hm (pk_header p) live -> pkg_op_ok o ->
  zlen (pk_file p) + pkg_op_cost o <= 2^63 ->
  let p' := fst (fst (run_pkg_op sha p o)) in
  same_besides_parts_meta (pk_header p) (pk_header p') /\ hm (pk_header p') (op_metas fs o live).
Proof.
  intros G I [W Ma R N] Ok Hb. pose proof I as [(es & H & O & F) P V Hs M D].
  assert (Same : forall p', wf_header (pk_header p') -> same_besides_parts (pk_header p) (pk_header p') ->
    same_besides_parts_meta (pk_header p) (pk_header p') /\ hm (pk_header p') live).
  { intros p' W' S. split; [now apply sbp_sbpm|]. destruct (sbp_metas _ _ S) as [E1 E2]. constructor; auto; [rewrite E1, E2|rewrite E1]; auto. }
  assert (Id : same_besides_parts_meta (pk_header p) (pk_header p) /\ hm (pk_header p) live).
  { split; [apply sbpm_refl|]. now constructor. }
  destruct o as [name data flags|id rm|rm|id]; cbn [run_pkg_op op_metas pkg_op_ok pkg_op_cost] in *.
  - destruct Ok as (On & Oid & Of & Ot).
    destruct (add_file_fails sha p es data name flags H Oid) as [A1 A2]. rewrite (ids_of _ _ F) in A1, A2.
    destruct (in_dec Z.eq_dec (bpak_id name) (map f_id fs)) as [Hin|Nin].
    + rewrite (A1 Hin). exact Id.
    + pose proof (ho_count _ _ H) as Hc. destruct (Nat.leb_spec 32 (length es)).
      * rewrite (A2 Nin) by lia. exact Id.
      * pose proof (padding_range (zlen data)).
        destruct (add_file_ok sha p es data name flags) as (p' & E & H' & Sb & D'); auto.
        { eapply plain_of; eauto. }
        { now rewrite (ids_of _ _ F). }
        { lia. }
        rewrite E. cbn [fst]. apply Same; auto. apply (ho_wf _ _ H').
  - destruct (existsb (fun f => f_id f =? id) fs) eqn:Ex.
    + apply existsb_id in Ex. destruct (first_with_id _ _ Ex) as (fa & f & fb & Ef & Eid & Fa).
      destruct (Forall2_split _ _ _ _ _ _ F Ef) as (a & [q c] & b & -> & F1 & (Fq1 & Fq2 & Fq3) & F2).
      cbn [fst snd] in Fq1, Fq2. rewrite Eid in Fq2. subst id.
      destruct (delete_part_ok sha p a q c b rm live) as (p' & E & H' & D' & X1 & X2); auto.
      rewrite Fq2 in E. rewrite E. cbn [fst]. destruct rm.
      * destruct (X2 eq_refl) as (X3 & X4 & X5). split; [exact X3|]. rewrite <- Fq2. constructor; auto; [apply (ho_wf _ _ H')|].
        eapply Nat.le_lt_trans; [apply purge_length|exact R].
      * apply Same; auto. apply (ho_wf _ _ H').
    + assert (Nin : ~ In id (map f_id fs)) by (intros C; apply existsb_id in C; congruence).
      rewrite (delete_part_missing sha p es id rm); auto; [|now rewrite (ids_of _ _ F)]. cbn [fst]. destruct rm; exact Id.
  - pose proof (pkg_files_bound _ _ _ I) as Bf.
    destruct (delete_all_ok sha p rm live) as (p' & E & H' & L' & D' & X1 & X2); auto.
    { lia. }
    rewrite E. cbn [fst]. destruct rm.
    + destruct (X2 eq_refl) as (X3 & X4 & X5). split; [exact X3|]. constructor; auto; [apply (ho_wf _ _ H')|].
      eapply Nat.le_lt_trans; [apply purge_length|exact R].
    + apply Same; auto. apply (ho_wf _ _ H').
  - destruct (pkg_extract_file p id) as [out r]. exact Id.
Qed.

(* ---- the header rewritten in place ---- *)
Lemma pkg_inv_size sha p fs : pkg_inv sha p fs -> zlen (pk_file p) = 4096 + zlen (concat (map file_stored fs)).
Proof.
  intros [(es & H & O & F) _ _ _ _ _]. rewrite (holds_len _ _ H). f_equal. f_equal. f_equal.
  clear - F. induction F as [|f e fs es (E & _) _ IH]; [reflexivity|]. cbn [map]. now rewrite E, IH.
Qed.
Lemma header_rewrite sha p fs h' live : pkg_inv sha p fs -> hm h' live ->
  h_magic h' = h_magic (pk_header p) -> h_parts h' = h_parts (pk_header p) -> h_hash_kind h' = h_hash_kind (pk_header p) ->
  h_payload_hash h' = h_payload_hash (pk_header p) ->
  pkg_inv sha (mkPkg h' (fwrite_at (pk_file p) 0 (enc_header h'))) fs.
Proof.
  intros I [W M R N] Em Ep Ek Eh. pose proof I as [(es & H & O & F) P V Hs M0 D].
  assert (Fw : fwrite_at (pk_file p) 0 (enc_header h') = enc_header h' ++ concat (map snd es)).
  { rewrite fwrite_0, zlen_enc_header by auto. rewrite (ho_file _ _ H).
    rewrite zdrop_app_r by (rewrite zlen_enc_header by apply (ho_wf _ _ H); lia).
    rewrite zlen_enc_header by apply (ho_wf _ _ H). rewrite Z.sub_diag, zdrop_0. reflexivity. }
  apply (inv_build sha p _ fs es); cbn [pk_header]; auto.
  - exists live. auto.
  - pose proof (ho_bound _ _ H) as B. rewrite (ho_file _ _ H), zlen_app, zlen_enc_header in B by apply (ho_wf _ _ H).
    destruct H as [A1 A2 A3 A4 A5 A6 A7 A8]. constructor; cbn [pk_header pk_file]; auto.
    + rewrite Ep. exact A3.
    + rewrite Fw, zlen_app, zlen_enc_header by auto. exact B.
  - unfold hash_current. cbn [pk_header]. rewrite Ek, Eh, (files_covered_eq _ _ F). exact D.
Qed.

(* ---- adding a file with its tree, whatever else the package holds ---- *)
Theorem add_merkle_ok sha p es live data name salt flags : good_hash sha -> holds p es -> plain es ->
  hash_supported (h_hash_kind (pk_header p)) = true -> hm (pk_header p) live ->
  bytes_ok name -> bpak_id name <> 0 -> part_name_to_hash_tree_id name <> 0 ->
  ~ In (bpak_id name) (map (fun e : parth * bytes => p_id (fst e)) es) ->
  ~ In (part_name_to_hash_tree_id name) (map (fun e : parth * bytes => p_id (fst e)) es) ->
  part_name_to_hash_tree_id name <> bpak_id name ->
  (forall k, (k = ID_MERKLE_SALT \/ k = ID_MERKLE_ROOT_HASH) -> ~ In (k, bpak_id name) (map e_key live)) ->
  (length es <= 30)%nat -> (length live <= 29)%nat -> meta_end live + 64 <= 1920 ->
  0 <= flags < 256 -> Z.testbit flags 1 = false ->
  0 < zlen data <= 2^33 -> zlen data mod 4096 = 0 -> zlen salt = 32 -> bytes_ok salt ->
  zlen (pk_file p) + zlen data + 2^40 <= 2^63 ->
  exists p' ls, hash_levels sha salt data ls /\ zlen (hash_tree ls) mod 4096 = 0 /\
    pkg_add_file_with_merkle_tree sha p data name salt flags = (p', Ok tt) /\
    let es' := es ++ [(new_part p (bpak_id name) data flags, data);
                            (tree_part p name data (hash_tree ls) flags, hash_tree ls)] in
    holds p' es' /\ hash_current sha p' es' /\
    hm (pk_header p') (live ++ [mkEntry ID_MERKLE_SALT (bpak_id name) salt;
                mkEntry ID_MERKLE_ROOT_HASH (bpak_id name) (root_hash sha salt data ls)]) /\
    same_besides_parts_meta (pk_header p) (pk_header p').
Proof.
  intros G H P Hs Hm Hnm Hid Htid Hnin Hnin2 Hne Kn Hl Hll Hme Hfl Hft Hn Ha Hsl Bs Hb.
  destruct (hash_levels_total sha salt data G ltac:(lia) Ha) as (ls & Hls & _).
  pose proof (zlen_nonneg (pk_file p)) as Hpf.
  destruct (add_file_ok sha p es data name flags) as (p1 & E1 & H1 & S1 & D1); auto; try lia.
  assert (Pad : padding (zlen data) = 0).
  { unfold padding. apply Z.mod_opp_l_z; [lia|]. change 4096 with (512 * 8) in Ha. lia. }
  rewrite Pad in *. change (zeros 0) with (@nil Z) in *. rewrite app_nil_r in *.
  set (q := new_part p (bpak_id name) data flags) in *. set (es1 := es ++ [(q, data)]) in *.
  assert (Pl1 : plain es1).
  { apply Forall_app. split; [exact P|]. constructor; [exact Hft|constructor]. }
  pose proof (append_offset_spec p1 es1 H1 Pl1) as Off1.
  assert (F0 : zlen (pk_file p) = 4096 + zlen (concat (map snd es))).
  { rewrite (ho_file _ _ H), zlen_app, zlen_enc_header by apply (ho_wf _ _ H). reflexivity. }
  assert (F1 : zlen (pk_file p1) = zlen (pk_file p) + zlen data).
  { rewrite (ho_file _ _ H1), zlen_app, zlen_enc_header by apply (ho_wf _ _ H1). unfold es1.
    rewrite map_app, concat_app, zlen_app. cbn [map concat snd]. rewrite app_nil_r. lia. }
  destruct (build_tree_ok sha data salt ls G Hn Ha Hsl Hls) as (Eb & Lt & At).
  pose proof (bpak_id_bound name Hnm) as Bid.
  destruct (sbp_metas _ _ S1) as [Em1 Ed1].
  assert (Hm1 : hm (pk_header p1) live).
  { destruct Hm as [A B C E]. constructor; auto; [apply (ho_wf _ _ H1)|rewrite Em1, Ed1|rewrite Em1]; auto. }
  pose proof (add_meta_bytes_cases (pk_header p1) live ID_MERKLE_SALT (bpak_id name) salt ltac:(unfold ID_MERKLE_SALT; lia) ltac:(lia) Bs Hm1 ltac:(lia)) as C2.
  rewrite (proj2 (existsb_key_false _ _ _) (Kn ID_MERKLE_SALT ltac:(auto))) in C2.
  destruct (Z.ltb_spec 1920 (meta_end live + zlen salt)) as [Bad2|_]; [lia|]. destruct C2 as (h2 & E2 & Hm2 & Sm2).
  set (root := root_hash sha salt data ls) in *.
  assert (Lroot : zlen root = 32 /\ bytes_ok root).
  { unfold root, root_hash. destruct (zlen data =? 4096); exact (G 1 _ eq_refl). }
  set (live2 := live ++ [mkEntry ID_MERKLE_SALT (bpak_id name) salt]) in *.
  assert (Ll2 : (length live2 <= 30)%nat) by (unfold live2; rewrite app_length; cbn [length]; lia).
  assert (Kn2 : ~ In (ID_MERKLE_ROOT_HASH, bpak_id name) (map e_key live2)).
  { unfold live2. rewrite map_app. intros X. apply in_app_or in X as [X|X]; [exact (Kn _ ltac:(auto) X)|].
    cbn [map e_key e_id e_ref] in X. destruct X as [X|[]]. discriminate X. }
  assert (Me2 : meta_end live2 = meta_end live + 32).
  { unfold live2. rewrite meta_end_app. cbn [meta_end e_val]. rewrite Hsl. unfold align8. lia. }
  pose proof (add_meta_bytes_cases h2 live2 ID_MERKLE_ROOT_HASH (bpak_id name) root ltac:(unfold ID_MERKLE_ROOT_HASH; lia) ltac:(lia) ltac:(tauto) Hm2 Ll2) as C3.
  rewrite (proj2 (existsb_key_false _ _ _) Kn2) in C3.
  destruct (Z.ltb_spec 1920 (meta_end live2 + zlen root)) as [Bad3|_]; [lia|]. destruct C3 as (h3 & E3 & Hm3 & Sm3).
  unfold live2 in Hm3. rewrite <- app_assoc in Hm3. cbn [app] in Hm3.
  pose proof (same_but_meta_trans _ _ _ Sm2 Sm3) as Sm.
  set (p2 := mkPkg h3 (enc_header h3 ++ concat (map snd es1))).
  pose proof (hm_wf _ _ Hm3) as W3.
  assert (H2 : holds p2 es1).
  { destruct H1 as [A1 A2 A3 A4 A5 A6 A7 A8].
    constructor; cbn [p2 pk_header pk_file]; auto.
    - rewrite Sm. exact A3.
    - rewrite zlen_app, zlen_enc_header by auto. rewrite A7, zlen_app, zlen_enc_header in A8 by auto. exact A8. }
  assert (F2 : zlen (pk_file p2) = zlen (pk_file p1)).
  { unfold p2. cbn [pk_file]. rewrite (ho_file _ _ H1), !zlen_app, !zlen_enc_header by (auto; apply (ho_wf _ _ H1)). reflexivity. }
  pose proof (add_part_holds p2 es1 (part_name_to_hash_tree_id name) H2 Htid) as Ap.
  change (pk_header p2) with h3 in Ap.
  assert (Nin1 : ~ In (part_name_to_hash_tree_id name) (map (fun e : parth * bytes => p_id (fst e)) es1)).
  { unfold es1. rewrite map_app. intros X. apply in_app_or in X as [X|[X|[]]]; [exact (Hnin2 X)|]. elim Hne. symmetry. exact X. }
  replace (existsb _ es1) with false in Ap.
  2:{ symmetry. apply not_true_is_false. intros X. apply existsb_exists in X as (x & Hx & E).
      elim Nin1. apply Z.eqb_eq in E. rewrite <- E. now apply (in_map (fun e : parth * bytes => p_id (fst e))). }
  assert (Ll1 : length es1 = S (length es)) by (unfold es1; rewrite app_length; cbn [length]; lia).
  destruct (Nat.leb_spec 32 (length es1)); [lia|].
  assert (Bt : 0 <= part_name_to_hash_tree_id name < 2^32).
  { rewrite hash_tree_id_name. apply bpak_id_bound. apply bytes_ok_app. split; auto. apply bytes_of_ok. }
  set (t := tree_part p name data (hash_tree ls) flags) in *.
  destruct (append_commit_gen sha p2 es1 t (hash_tree ls) (pk_file p1 ++ hash_tree ls)) as (p' & E4 & H4 & S4 & D4); auto; try lia.
  - change (pk_header p2) with h3. rewrite Sm. unfold same_but_meta in Sm. rewrite S1. exact Hs.
  - unfold t, tree_part. apply wf_new_part; try lia.
  - unfold t, tree_part, stored_size. cbn [p_flags p_size p_pad_bytes]. rewrite Hft. lia.
  - rewrite zlen_app. lia.
  - rewrite (ho_file _ _ H1), <- app_assoc, zdrop_app_r by (rewrite zlen_enc_header by apply (ho_wf _ _ H1); lia).
    rewrite zlen_enc_header by apply (ho_wf _ _ H1). rewrite Z.sub_diag, zdrop_0. reflexivity.
  - assert (Ees : es1 ++ [(t, hash_tree ls)] = es ++ [(q, data); (t, hash_tree ls)]) by (unfold es1; now rewrite <- app_assoc).
    pose proof (eq_ind _ (fun x => holds p' x) H4 _ Ees) as H4x. pose proof (eq_ind _ (fun x => hash_current sha p' x) D4 _ Ees) as D4x.
    clear H4 D4. rename H4x into H4. rename D4x into D4. cbv beta in H4, D4.
    exists p', ls. split; [exact Hls|]. split; [exact At|].
    assert (Eadd : pkg_add_file_with_merkle_tree sha p data name salt flags = (p', Ok tt)).
    { unfold pkg_add_file_with_merkle_tree. rewrite E1, Eb, E2, E3, Ap, Off1.
      pose proof (filled_header p2 es1 (part_name_to_hash_tree_id name) (zlen (hash_tree ls)) (zlen (pk_file p1)) 0 flags H2 ltac:(lia)) as Fh.
      change (pk_header p2) with h3 in Fh. rewrite Fh. clear Fh.
      rewrite s64_small by (pose proof (ho_bound _ _ H1); pose proof (zlen_nonneg (pk_file p1)); lia).
      destruct (Z.ltb_spec (zlen (pk_file p1)) 0); [pose proof (zlen_nonneg (pk_file p1)); lia|].
      rewrite fwrite_at_end by reflexivity. rewrite <- E4. unfold t, tree_part. rewrite F1. reflexivity. }
    split; [exact Eadd|].
    destruct (sbp_metas _ _ S4) as [Em4 Ed4]. change (pk_header p2) with h3 in Em4, Ed4.
    split; [exact H4|]. split; [exact D4|]. split.
    + destruct Hm3 as [A B C E]. constructor; auto; [apply (ho_wf _ _ H4)|rewrite Em4, Ed4|rewrite Em4]; auto.
    + unfold same_besides_parts_meta. unfold same_besides_parts in S4, S1. unfold same_but_meta in Sm.
      rewrite Em4, Ed4. rewrite S4 at 1. change (pk_header p2) with h3.
      rewrite Sm at 1. rewrite S1 at 1. reflexivity.
Qed.
