(* SafeProofs.v -- hash, tree and signature checks on arbitrary input *)
From Verif Require Import BaseLemmas HeaderModel HeaderSpec CodecProofs PartProofs HashModel MerkleModel MerkleSizes CrcModel VerifyModel SafeSpec.

Lemma ans_bind {A B} (r : res A) (k : A -> res B) : answers r -> (forall a, r = Ok a -> answers (k a)) ->
  answers (bind r k).
Proof. intros [[a ->]|[e ->]] H; [now apply H|right; exists e; reflexivity]. Qed.
Lemma ans_ok {A} (a : A) : answers (Ok a). Proof. left; eauto. Qed.
Lemma ans_err {A} e : @answers A (Err e). Proof. right; eauto. Qed.
Lemma ans_comes_back {A} (r : res A) : answers r -> comes_back r.
Proof. intros [[a ->]|[e ->]]; discriminate. Qed.
Lemma ans_not_ub {A} (r : res A) : answers r -> r <> UB.
Proof. intros [[a ->]|[e ->]]; discriminate. Qed.
Lemma file_rd_answers f : answering_reader (file_rd f).
Proof.
  intros o n. unfold file_rd. destruct (o <? 0); [apply ans_err|]. destruct (zlen (fread_at f o n) =? n); [apply ans_ok|apply ans_err].
Qed.
Lemma hash_init_answers k : answers (hash_init k).
Proof. unfold hash_init. destruct (hash_supported k); [apply ans_ok|apply ans_err]. Qed.
Lemma hash_final_answers sha c room : answers (hash_final sha c room).
Proof.
  unfold hash_final. destruct (negb _); [apply ans_err|]. destruct (room <? _); [apply ans_err|apply ans_ok].
Qed.
Lemma header_hash_answers sha h room : answers (compute_header_hash sha h room).
Proof.
  unfold compute_header_hash. apply ans_bind; [apply hash_init_answers|]. intros c _.
  match goal with |- context [hash_final ?a ?b ?c] => destruct (hash_final a b c) end; apply ans_ok.
Qed.

Section Reader.
Context (rd : rdfn) (R : answering_reader rd).
Lemma hash_part_answers : forall fuel c pos left, 0 <= left -> left / 4096 < Z.of_nat fuel ->
  answers (hash_part_loop rd fuel c pos left).
Proof using R.
  induction fuel as [|k IH]; intros c pos left Hl Hf.
  - pose proof (Z.div_pos left 4096). lia.
  - cbn [hash_part_loop]. change CHUNK with 4096. destruct (Z.gtb_spec left 4096) as [G|G].
    + destruct (R pos 4096) as [[b ->]|[e ->]]; [|apply ans_err].
      destruct (Z.eqb_spec (left - 4096) 0); [apply ans_ok|]. apply IH; [lia|].
      assert (left / 4096 = (left - 4096) / 4096 + 1) by (rewrite <- Z.div_add by lia; f_equal; lia). lia.
    + destruct (R pos left) as [[b ->]|[e ->]]; [|apply ans_err].
      rewrite Z.sub_diag. cbn [Z.eqb]. apply ans_ok.
Qed.
Lemma hash_parts_answers : forall l c pos, Forall (fun p => 0 <= part_size p) l -> answers (hash_parts_loop rd c pos l).
Proof using R.
  induction l as [|p r IH]; intros c pos F; cbn [hash_parts_loop]; [apply ans_ok|].
  pose proof (Forall_inv F) as Fp. apply Forall_inv_tail in F.
  destruct (p_id p =? 0); [now apply IH|]. destruct (has_flag _ _); [now apply IH|].
  apply ans_bind.
  - apply hash_part_answers; [exact Fp|]. change CHUNK with 4096. pose proof (Z.div_pos (part_size p) 4096). lia.
  - intros [c' pos'] _. now apply IH.
Qed.
Lemma payload_hash_answers sha h off room : Forall (fun p => 0 <= part_size p) (h_parts h) ->
  answers (compute_payload_hash sha h rd off room).
Proof using R.
  intros F. unfold compute_payload_hash. apply ans_bind; [apply hash_init_answers|]. intros c _.
  apply ans_bind; [now apply hash_parts_answers|]. intros c' _. apply hash_final_answers.
Qed.

(* ---- trees ---- *)
Lemma verify_wr_answers s o b : answers (io_wr (verify_io rd) s o b).
Proof using R.
  cbn [verify_io io_wr]. apply ans_bind; [apply R|]. intros x _. destruct (bytes_eqb b x); [apply ans_ok|apply ans_err].
Qed.
Lemma verify_rd_answers s o n : answers (io_rd (verify_io rd) s o n).
Proof using R. apply R. Qed.

Definition steady (c : mctx) : Prop := 0 < mk_block_counter c <= 4096 /\ mk_levels c <> 0.
Lemma write_loop_answers sha : forall fuel c s data, steady c -> (length data <= fuel)%nat ->
  answers (write_loop sha (verify_io rd) fuel c s data) /\
  forall x, write_loop sha (verify_io rd) fuel c s data = Ok x -> steady (fst x).
Proof using R.
  induction fuel as [|k IH]; intros c s data [Sb Sl] Hf.
  - destruct data; [|cbn in Hf; lia]. cbn. split; [apply ans_ok|]. intros x E. injection E as <-. now split.
  - cbn [write_loop]. destruct (Z.eqb_spec (zlen data) 0) as [Z0|Z0].
    { split; [apply ans_ok|]. intros x E. injection E as <-. now split. }
    set (n := Z.min (mk_block_counter c) (zlen data)). pose proof (zlen_nonneg data).
    assert (Hn : 1 <= n) by (subst n; lia).
    assert (Ld : (length (zdrop n data) <= k)%nat).
    { assert (zlen (zdrop n data) < zlen data) by (rewrite zlen_zdrop; lia). unfold zlen in *. lia. }
    destruct (Z.eqb_spec (mk_block_counter c - n) 0) as [B|B].
    + match goal with |- context [io_wr ?d ?s ?o ?b] => destruct (verify_wr_answers s o b) as [[s' ->]|[e ->]] end.
      * destruct (mk_input_length c =? MBLOCK).
        -- split; [apply ans_ok|]. intros x E. injection E as <-. split; cbn; [unfold MBLOCK; lia|exact Sl].
        -- apply IH; [|exact Ld]. split; cbn; [unfold MBLOCK; lia|exact Sl].
      * split; [apply ans_err|]. discriminate.
    + apply IH; [|exact Ld]. split; cbn; [|exact Sl]. subst n. lia.
Qed.
Lemma data_loop_answers sha : forall fuel c pos left, steady c -> 0 <= left -> left <= 4096 * Z.of_nat fuel ->
  answers (verify_data_loop sha rd fuel c pos left) /\
  forall x, verify_data_loop sha rd fuel c pos left = Ok x -> steady x.
Proof using R.
  induction fuel as [|k IH]; intros c pos left S Hl Hf.
  - cbn [verify_data_loop]. destruct (Z.eqb_spec left 0) as [L|L]; [|lia].
    split; [apply ans_ok|]. intros x E. injection E as <-. exact S.
  - cbn [verify_data_loop]. destruct (Z.eqb_spec left 0) as [L|L].
    { split; [apply ans_ok|]. intros x E. injection E as <-. exact S. }
    change CHUNK with 4096.
    destruct (R pos (Z.min left 4096)) as [[b ->]|[e ->]]; [|split; [apply ans_err|discriminate]].
    unfold merkle_write_chunk.
    cbn [bind]. match goal with |- context [write_loop sha _ ?n c ?s ?y] => destruct (write_loop_answers sha n c s y S (le_n _)) as [W St] end.
    destruct W as [[x E]|[e E]]; rewrite E; cbn [bind]; [|split; [apply ans_err|discriminate]].
    apply IH; [now apply St|lia|lia].
Qed.
Lemma read_pieces_answers : forall k s pos acc, answers (read_pieces (verify_io rd) k s pos acc).
Proof using R.
  induction k as [|k IH]; intros s pos acc; cbn [read_pieces]; [apply ans_ok|].
  apply ans_bind; [apply verify_rd_answers|]. intros b _. apply IH.
Qed.
Lemma finish_level_answers sha salt : forall n s src dst, answers (finish_level sha (verify_io rd) n s salt src dst).
Proof using R.
  induction n as [|n IH]; intros s src dst; cbn [finish_level]; [apply ans_ok|].
  apply ans_bind; [apply read_pieces_answers|]. intros m _. apply ans_bind; [apply verify_wr_answers|]. intros s' _. apply IH.
Qed.
Lemma finish_levels_answers sha c : forall n i s, answers (finish_levels sha (verify_io rd) n i c s).
Proof using R.
  induction n as [|n IH]; intros i s; cbn [finish_levels]; [apply ans_ok|].
  apply ans_bind; [apply finish_level_answers|]. intros s' _. apply IH.
Qed.
Lemma finish_answers sha c s : mk_levels c <> 0 -> answers (merkle_finish sha (verify_io rd) c s).
Proof using R.
  intros L. unfold merkle_finish. destruct (mk_finished c); [apply ans_ok|].
  apply ans_bind; [apply finish_levels_answers|]. intros s' _. destruct (Z.eqb_spec (mk_levels c) 0); [contradiction|].
  apply ans_bind; [apply read_pieces_answers|]. intros m _. apply ans_ok.
Qed.
Lemma level_loop_answers : forall fuel level len lens total, 0 <= level < 4 -> (Z.to_nat (4 - level) <= fuel)%nat ->
  answers (snd (level_loop fuel level len lens total)) /\
  forall n, snd (level_loop fuel level len lens total) = Ok n -> n <> 0.
Proof.
  induction fuel as [|k IH]; intros level len lens total Hl Hf; [lia|].
  cbn [level_loop]. change MAX_LEVELS with 4. destruct (Z.leb_spec 4 (level + 1)); [split; [apply ans_err|discriminate]|].
  destruct (next_level len =? MBLOCK).
  - split; [apply ans_ok|]. intros n E. cbn in E. injection E as <-. lia.
  - apply IH; lia.
Qed.
Lemma init_answers n salt off : answers (snd (merkle_init (verify_io rd) tt n salt off false)) /\
  forall s, snd (merkle_init (verify_io rd) tt n salt off false) = Ok s ->
    steady (fst (merkle_init (verify_io rd) tt n salt off false)).
Proof using R.
  unfold merkle_init. destruct (negb _); [split; [apply ans_err|discriminate]|].
  destruct (32 <? zlen salt); [split; [apply ans_err|discriminate]|].
  destruct (level_loop_answers 5 0 n (repeat 0 4) 0 ltac:(lia) ltac:(lia)) as [A N].
  destruct (level_loop 5 0 n (repeat 0 4) 0) as [[lens total] r]. cbn [snd] in A, N.
  destruct A as [[l ->]|[e ->]]; cbn [fst snd].
  - split; [apply ans_ok|]. intros s _. split; cbn; [unfold MBLOCK; lia|]. now apply N.
  - split; [apply ans_err|discriminate].
Qed.
Lemma tree_answers sha doff n toff root salt : 0 <= n -> answers (verify_merkle_tree sha rd doff n toff root salt).
Proof using R.
  intros Hn. unfold verify_merkle_tree. destruct (init_answers n salt toff) as [A S].
  destruct (merkle_init (verify_io rd) tt n salt toff false) as [c r]. cbn [fst snd] in A, S.
  destruct A as [[s ->]|[e ->]]; [|apply ans_err]. specialize (S s eq_refl).
  destruct (data_loop_answers sha (Z.to_nat (n / CHUNK + 1)) c doff n S Hn) as [D Sd].
  { change CHUNK with 4096. pose proof (Z.div_mod n 4096). pose proof (Z.mod_pos_bound n 4096). pose proof (Z.div_pos n 4096). lia. }
  cbn [bind]. destruct D as [[c' E]|[e E]]; rewrite E; cbn [bind]; [|apply ans_err]. specialize (Sd c' E).
  apply ans_bind; [apply finish_answers; apply Sd|]. intros x _. destruct (bytes_eqb _ _); [apply ans_ok|apply ans_err].
Qed.

(* the only way out of bounds: a root or salt whose 32 bytes leave the block *)
Lemma meta_read_cases h i m : nth_error (h_meta h) i = Some m ->
  (m_offset m + 32 <= 1920 /\ answers (meta_read h i 0 32)) \/ (1920 < m_offset m + 32 /\ meta_read h i 0 32 = UB).
Proof.
  intros E. unfold meta_read. rewrite E. change METADATA_BYTES with 1920. rewrite Z.add_0_r.
  destruct (Z.gtb_spec (m_offset m + 32) 1920); [right; split; [lia|reflexivity]|left; split; [lia|apply ans_ok]].
Qed.
Lemma get_meta_at h id ref i : get_meta h id ref = Ok i ->
  exists m, nth_error (h_meta h) i = Some m /\ In m (h_meta h) /\ m_id m = id /\ m_ref m = ref.
Proof.
  unfold get_meta, get_meta_int. destruct (find_index _ _) as [j|] eqn:F; [|discriminate]. intros E. injection E as <-.
  destruct (find_index_Some _ _ _ F) as (a & m & b & Em & La & Pm & _). exists m.
  apply andb_true_iff in Pm as [P1 P2]. apply Z.eqb_eq in P1. apply Z.eqb_eq in P2.
  split; [|split; [|auto]].
  - rewrite Em, nth_error_app2, La, Nat.sub_diag by lia. reflexivity.
  - rewrite Em. apply in_or_app. right. left. reflexivity.
Qed.

Lemma trees_loop_answers sha h off : tree_values_inside h ->
  forall l, Forall (fun p => 0 <= part_size p) l -> answers (verify_trees_loop sha h rd off l).
Proof using R.
  intros T. induction l as [|p r IH]; intros F; cbn [verify_trees_loop]; [apply ans_ok|].
  pose proof (Forall_inv F) as Fp. apply Forall_inv_tail in F.
  destruct (p_id p =? 0); [now apply IH|].
  destruct (get_meta h ID_MERKLE_ROOT_HASH (p_id p)) as [mi|e| |] eqn:Em; try now apply IH.
  destruct (get_meta_at _ _ _ _ Em) as (m & Nm & Im & Dm & _).
  unfold tree_values_inside in T. rewrite Forall_forall in T.
  destruct (meta_read_cases h mi m Nm) as [[_ A]|[X _]]; [|specialize (T m Im (or_introl Dm)); lia].
  apply ans_bind; [exact A|]. intros root _.
  destruct (get_meta h ID_MERKLE_SALT (p_id p)) as [si|e| |] eqn:Es; try apply ans_err.
  destruct (get_meta_at _ _ _ _ Es) as (m' & Nm' & Im' & Dm' & _).
  destruct (meta_read_cases h si m' Nm') as [[_ A']|[X _]]; [|specialize (T m' Im' (or_intror Dm')); lia].
  apply ans_bind; [exact A'|]. intros salt _.
  unfold get_part. destruct (find_index (fun p0 => p_id p0 =? part_id_to_hash_tree_id (p_id p)) (h_parts h)) as [ti|] eqn:Et; [|apply ans_err].
  cbn [bind]. destruct (find_index_Some _ _ _ Et) as (a & t & b & Ep & La & _ & _).
  assert (Nt : nth_error (h_parts h) ti = Some t).
  { rewrite Ep, nth_error_app2, La, Nat.sub_diag by lia. reflexivity. }
  rewrite Nt. apply ans_bind; [apply tree_answers; exact Fp|]. intros _ _. now apply IH.
Qed.
Lemma trees_loop_back sha h off :
  forall l, Forall (fun p => 0 <= part_size p) l -> comes_back (verify_trees_loop sha h rd off l).
Proof using R.
  unfold comes_back. induction l as [|p r IH]; intros F; cbn [verify_trees_loop]; [discriminate|].
  pose proof (Forall_inv F) as Fp. apply Forall_inv_tail in F.
  destruct (p_id p =? 0); [now apply IH|].
  destruct (get_meta h ID_MERKLE_ROOT_HASH (p_id p)) as [mi|e| |] eqn:Em; try now apply IH.
  destruct (get_meta_at _ _ _ _ Em) as (m & Nm & Im & Dm & _).
  destruct (meta_read_cases h mi m Nm) as [[_ [[x ->]|[e ->]]]|[_ ->]]; cbn [bind]; try discriminate.
  destruct (get_meta h ID_MERKLE_SALT (p_id p)) as [si|e| |] eqn:Es; try discriminate.
  destruct (get_meta_at _ _ _ _ Es) as (m' & Nm' & Im' & Dm' & _).
  destruct (meta_read_cases h si m' Nm') as [[_ [[x' ->]|[e ->]]]|[_ ->]]; cbn [bind]; try discriminate.
  unfold get_part. destruct (find_index (fun p0 => p_id p0 =? part_id_to_hash_tree_id (p_id p)) (h_parts h)) as [ti|] eqn:Et; [|discriminate].
  cbn [bind]. destruct (nth_error (h_parts h) ti) as [t|]; [|discriminate].
  match goal with |- context [verify_merkle_tree ?a ?b ?c ?d ?e ?f ?g] => destruct (tree_answers a c d e f g Fp) as [[y ->]|[z ->]] end; cbn [bind]; [now apply IH|discriminate].
Qed.
Lemma payload_back sha h off : Forall (fun p => 0 <= part_size p) (h_parts h) -> comes_back (verify_payload sha h rd off).
Proof using R.
  intros F. unfold verify_payload. destruct (payload_hash_answers sha h off 64 F) as [[d ->]|[e ->]]; cbn [bind]; [|discriminate].
  destruct (bytes_eqb _ _); [now apply trees_loop_back|discriminate].
Qed.
Lemma payload_answers sha h off : Forall (fun p => 0 <= part_size p) (h_parts h) -> tree_values_inside h ->
  answers (verify_payload sha h rd off).
Proof using R.
  intros F T. unfold verify_payload. apply ans_bind; [now apply payload_hash_answers|]. intros d _.
  destruct (bytes_eqb _ _); [now apply trees_loop_answers|apply ans_err].
Qed.
End Reader.

Lemma part_size_nonneg p : wf_part p -> 0 <= part_size p.
Proof.
  intros (_ & _ & _ & Ht & _). unfold part_size. destruct (has_flag _ _); [lia|]. unfold u64. apply Z.mod_pos_bound. lia.
Qed.
Lemma wf_part_sizes h : wf_header h -> Forall (fun p => 0 <= part_size p) (h_parts h).
Proof. intros W. eapply Forall_impl; [|exact (proj2 (wf_parts _ W))]. intros p. apply part_size_nonneg. Qed.

Lemma sha256_loop_answers f : forall fuel c pos left, 0 <= left -> left <= 4096 * Z.of_nat fuel ->
  answers (sha256_loop f fuel c pos left).
Proof.
  induction fuel as [|k IH]; intros c pos left Hl Hf; cbn [sha256_loop];
    (destruct (Z.eqb_spec left 0); [apply ans_ok|]); [lia|].
  change CHUNK with 4096. destruct (Z.gtb_spec left 4096);
    match goal with |- context [zlen ?x =? ?y] => destruct (zlen x =? y) end; try apply ans_err; apply IH; lia.
Qed.

Lemma part_sha256_answers sha p id room : wf_header (pk_header p) -> answers (pkg_part_sha256 sha p id room).
Proof.
  intros W. unfold pkg_part_sha256, get_part. destruct (find_index _ _) as [i|] eqn:E; [|apply ans_err]. cbn [bind].
  destruct (find_index_Some _ _ _ E) as (a & q & b & Ep & La & _ & _).
  assert (Nq : nth_error (h_parts (pk_header p)) i = Some q).
  { rewrite Ep, nth_error_app2, La, Nat.sub_diag by lia. reflexivity. }
  rewrite Nq. apply ans_bind; [apply hash_init_answers|]. intros c _.
  destruct (part_offset _ _ <? 0); [apply ans_err|].
  assert (Wq : wf_part q). { destruct (wf_parts _ W) as [_ F]. rewrite Forall_forall in F. apply F. rewrite Ep. apply in_or_app. right. left. reflexivity. }
  assert (S0 : 0 <= part_size_wo_pad q). { destruct Wq as (_ & Hs & _ & Ht & _). unfold part_size_wo_pad. destruct (has_flag _ _); lia. }
  apply ans_bind.
  - apply sha256_loop_answers; [exact S0|]. change CHUNK with 4096.
    pose proof (Z.div_mod (part_size_wo_pad q) 4096). pose proof (Z.mod_pos_bound (part_size_wo_pad q) 4096).
    pose proof (Z.div_pos (part_size_wo_pad q) 4096). lia.
  - intros c' _. apply hash_final_answers.
Qed.

Section Verify.
Context {K : Type} (sha : hashfn) (sg : sigscheme K) (A : answering_scheme sg).
Lemma verify_back junk p key : wf_header (pk_header p) -> comes_back (pkg_verify sha sg junk p key).
Proof using A.
  intros W. unfold pkg_verify, comes_back. destruct (header_hash_answers sha (pk_header p) 64) as [[x ->]|[e ->]]; cbn [bind]; [|discriminate].
  destruct (_ >? 512); [discriminate|].
  match goal with |- context [sg_verify sg ?a ?b ?c ?d] => destruct (A a b c d) as [[v ->]|[e ->]] end; cbn [bind]; [|discriminate].
  destruct v; [|discriminate]. apply payload_back; [apply file_rd_answers|now apply wf_part_sizes].
Qed.
Lemma verify_answers junk p key : wf_header (pk_header p) -> signature_inside (pk_header p) -> tree_values_inside (pk_header p) ->
  answers (pkg_verify sha sg junk p key).
Proof using A.
  intros W S T. unfold pkg_verify. apply ans_bind; [apply header_hash_answers|]. intros x _.
  unfold signature_inside in S. destruct (Z.gtb_spec (h_signature_sz (pk_header p)) 512); [lia|].
  apply ans_bind; [apply A|]. intros v _. destruct v; [|apply ans_err].
  apply payload_answers; [apply file_rd_answers|now apply wf_part_sizes|exact T].
Qed.
End Verify.
