(* TransportRefuse.v -- a build without LZMA *)
From Coq Require Import Lia.
From Verif Require Import Base BaseLemmas HeaderModel HeaderSpec CodecProofs CrcModel HashModel VerifyModel PkgSpec PkgProofs BspatchModel HsPatchModel LzModel TransportModel.
Local Open Scope Z_scope.
Local Open Scope list_scope.

Section R.
Variable bld : build.
Lemma decode_finish_keeps sha h i p qf d f h1 f1 r : decode_finish bld sha h i p qf d f = (h1, f1, r) -> h1 = h \/ exists q, h1 = set_part h i q.
Proof.
  unfold decode_finish. destruct (match d with DCopy _ => _ | _ => _ end) as [f2 [n|e| |]]; try (intros X; injection X as <- <- <-; auto).
  destruct (n <? 0); [intros X; injection X as <- <- <-; auto|]. destruct (negb _); intros X; injection X as <- <- <-; eauto.
Qed.
Lemma decode_part_keeps sha origin inp h i p pos f h1 f1 pos1 r : decode_part bld sha origin inp h i p pos f = (h1, f1, pos1, r) ->
  h1 = h \/ exists q, h1 = set_part h i q.
Proof.
  unfold decode_part. destruct (match origin with Some _ => _ | None => _ end) as [[]|e| |]; try (intros X; injection X as <- <- <- <-; auto).
  destruct (decode_start bld h p origin) as [d|e| |]; try (intros X; injection X as <- <- <- <-; auto).
  destruct (decode_chunks _ _ _ _ _ _ _ _ _ _) as [[[d1 f2] pos2] [u|e| |]]; try (intros X; injection X as <- <- <- <-; auto).
  destruct (decode_finish _ _ _ _ _ _ _ _) as [[h2 f3] r2] eqn:E. intros X. injection X as <- <- <- <-. eapply decode_finish_keeps; eauto.
Qed.
Lemma refuse_loop sha origin inp : forall n h i pos f j e m b, b_lzma bld = false ->
  (i <= j < i + n)%nat -> nth_error (h_parts h) j = Some e -> Forall (fun q => p_id q <> 0) (firstn (j - i) (skipn i (h_parts h))) ->
  p_id e <> 0 -> has_flag e FLAG_TRANSPORT = true -> get_meta h ID_BPAK_TRANSPORT (p_id e) = Ok m -> meta_read h m 4 4 = Ok b -> unle b = ID_BSPATCH_LZMA ->
  snd (decode_loop bld sha origin inp n h i pos f) <> Ok tt.
Proof.
  induction n as [|n IH]; intros h i pos f j e m b L Hj He NZ Hid T G M U; [lia|].
  cbn [decode_loop]. destruct (Nat.eq_dec i j) as [->|N].
  - rewrite He. destruct (Z.eqb_spec (p_id e) 0); [contradiction|].
    assert (X : exists r h1 f1 pos1, decode_part bld sha origin inp h j e pos f = (h1, f1, pos1, r) /\ r <> Ok tt).
    { unfold decode_part. destruct (match origin with Some _ => _ | None => _ end) as [[]|x| |]; try (do 4 eexists; split; [reflexivity|discriminate]).
      unfold decode_start, decoder_id. rewrite T, G, M. cbn [bind]. rewrite U.
      change ((ID_BSPATCH_LZMA =? ID_BSPATCH) || (ID_BSPATCH_LZMA =? ID_BSPATCH_NO_COMP) || (ID_BSPATCH_LZMA =? ID_BSPATCH_LZMA)) with true. cbv iota.
      destruct origin as [q|]; [|do 4 eexists; split; [reflexivity|discriminate]].
      change (ID_BSPATCH_LZMA =? ID_BSPATCH) with false. change (ID_BSPATCH_LZMA =? ID_BSPATCH_NO_COMP) with false. cbv iota. rewrite L.
      do 4 eexists; split; [reflexivity|discriminate]. }
    destruct X as (r & h1 & f1 & pos1 & -> & NR). destruct r as [[]|x| |]; [contradiction| | |]; cbn [snd]; discriminate.
  - destruct (nth_error (h_parts h) i) as [p|] eqn:Hp; [|discriminate].
    assert (SK : skipn i (h_parts h) = p :: skipn (S i) (h_parts h)).
    { clear - Hp. revert i Hp. induction (h_parts h) as [|x l IH]; intros [|i] Hp; try discriminate.
      - cbn in Hp. injection Hp as ->. reflexivity.
      - cbn [nth_error] in Hp. cbn [skipn]. rewrite (IH i Hp). reflexivity. }
    rewrite SK in NZ. replace (j - i)%nat with (S (j - S i)) in NZ by lia. cbn [firstn] in NZ. inversion NZ as [|? ? NZ1 NZ2]; subst.
    destruct (Z.eqb_spec (p_id p) 0); [contradiction|].
    destruct (decode_part bld sha origin inp h i p pos f) as [[[h1 f1] pos1] [[]|x| |]] eqn:E; try discriminate.
    apply decode_part_keeps in E.
    assert (K : nth_error (h_parts h1) j = Some e /\ skipn (S i) (h_parts h1) = skipn (S i) (h_parts h) /\ h_meta h1 = h_meta h /\ h_metadata h1 = h_metadata h).
    { destruct E as [->|[q ->]]; [auto|]. unfold set_part. cbn [with_parts h_parts h_meta h_metadata]. split; [|split; [|auto]].
      - rewrite nth_error_list_upd_other; auto.
      - clear. revert i. induction (h_parts h) as [|x l IH]; intros [|i]; try reflexivity. cbn [list_upd skipn]. apply IH. }
    destruct K as (K1 & K2 & K3 & K4).
    apply (IH h1 (S i) pos1 f1 j e m b L); auto; try lia.
    + now rewrite K2.
    + unfold get_meta, get_meta_int in *. rewrite K3. exact G.
    + unfold meta_read in *. rewrite K3, K4. exact M.
Qed.
Lemma decode_refuses sha p es f origin e m b : b_lzma bld = false -> holds p es -> In e es -> Z.testbit (p_flags (fst e)) 1 = true ->
  get_meta (pk_header p) ID_BPAK_TRANSPORT (p_id (fst e)) = Ok m -> meta_read (pk_header p) m 4 4 = Ok b -> unle b = ID_BSPATCH_LZMA ->
  snd (transport_decode bld sha p f origin) <> Ok tt.
Proof.
  intros L H Hin T G M U. unfold transport_decode.
  destruct (match origin with Some _ => _ | None => _ end) as [[]|x| |]; try discriminate.
  destruct (in_split _ _ Hin) as (a & c & ->). pose proof (ho_table _ _ H) as TB. rewrite map_app in TB. cbn [map] in TB. rewrite <- app_assoc in TB. cbn [app] in TB.
  pose proof (ho_nonzero _ _ H) as NZ. pose proof (ho_count _ _ H) as CN. rewrite app_length in CN. cbn [length] in CN.
  apply Forall_app in NZ as [NZ1 NZ2]. inversion NZ2 as [|? ? NZ3 _]; subst.
  apply (refuse_loop sha origin (pk_file p) MAX_PARTS (pk_header p) 0 _ f (length a) (fst e) m b L); auto.
  - unfold MAX_PARTS. lia.
  - rewrite TB. rewrite nth_error_app2 by (rewrite map_length; lia). rewrite map_length, Nat.sub_diag. reflexivity.
  - cbn [skipn]. rewrite Nat.sub_0_r, TB. rewrite firstn_app, map_length, Nat.sub_diag. cbn [firstn]. rewrite app_nil_r.
    rewrite firstn_all2 by (rewrite map_length; lia). apply Forall_map. exact NZ1.
  - rewrite PartProofs.has_flag_transport. exact T.
Qed.
End R.
