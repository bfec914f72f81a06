(* TransportSound.v -- what a decode that reports success has done, for any
   input package *)
From Coq Require Import Lia.
From Verif Require Import Base BaseLemmas HeaderModel HeaderSpec CodecProofs PartProofs CrcModel HashModel MerkleSpec VerifyModel VerifySpec PkgSpec PkgProofs BspatchModel HsPatchModel LzModel TransportModel
  TransportSpec TransportFile TransportLay TransportEncode TransportDecode TransportMain TransportRefuse.
Local Open Scope Z_scope.
Local Open Scope list_scope.

(* ---- a package that is not encoded ---- *)
Lemma decode_plain bld sha p (es : list (parth * bytes)) origin g : good_hash sha -> holds p es -> es <> [] -> plain es ->
  Forall (fun e => p_transport_size (fst e) = 0) es -> zlen (pk_file p) < 2^62 ->
  match origin with None => True | Some q => exists eo, origin_for q eo p es end ->
  transport_decode bld sha p g origin = (pk_header p, fwrite_at g 0 (pk_file p), Ok tt).
Proof.
  intros Hs Hp Ne Pl Fr Sz O. pose proof (ho_wf _ _ Hp) as W. pose proof (holds_lay _ _ Hp) as Lp.
  pose proof (zlen_enc_header _ W) as LH. unfold transport_decode.
  assert (Og : match origin with Some q => set_origin (pk_header q) (pk_header p) | None => Ok tt end = Ok tt).
  { destruct origin as [q|]; [|reflexivity]. destruct O as (eo & O). eapply set_origin_ok; [apply O|]. unfold same_besides_table. now rewrite with_parts_id. }
  rewrite Og. pose proof (ho_file _ _ Hp) as Fp.
  assert (Bp : 4096 + zlen (concat (map snd es)) < 2^62). { rewrite <- LH, <- zlen_app, <- Fp. exact Sz. }
  rewrite Fp at 2. assert (Cl : Forall clean es).
  { apply Forall_forall. intros e He. destruct (entry_wf _ _ e Hp He) as (We & Se & Be). unfold plain in Pl. rewrite Forall_forall in Pl, Fr. specialize (Pl e He).
    unfold clean. split; [exact We|]. split; [exact Pl|]. split; [now apply Fr|].
    rewrite Se. unfold stored_size. now rewrite Pl. }
  eapply (decode_loop_ok bld sha origin (pk_header p) g (pk_file p) es es (fun _ => AsIs) Hs W Lp Cl) with (es1 := []) (cs1 := []) (cs2 := es) (es2 := es); eauto.
  - apply Forall_forall. intros e He. split; [intros N; now elim N|]. split; [|discriminate].
    eapply origin_has_of; [|exact He]. exact O.
  - exists (enc_header (pk_header p)), []. split; [exact LH|]. rewrite app_nil_r. exact Fp.
  - clear. induction es as [|e es IH]; constructor; [reflexivity|exact IH].
  - unfold same_besides_table. now rewrite with_parts_id.
  - intros N. now elim N.
  - pose proof (la_count _ _ Lp). unfold MAX_PARTS. exact H.
Qed.

(* ---- success means: the header of the result is the input's, with the
   transport state of every part cleared ---- *)
Lemma clear_bit x : 0 <= x < 2^8 -> Z.land x (u8 (Z.lnot FLAG_TRANSPORT)) = Z.clearbit x 1 /\ 0 <= Z.clearbit x 1 < 2^8.
Proof.
  intros H. assert (F : forallb (fun n => (Z.land (Z.of_nat n) (u8 (Z.lnot FLAG_TRANSPORT)) =? Z.clearbit (Z.of_nat n) 1) && (0 <=? Z.clearbit (Z.of_nat n) 1) && (Z.clearbit (Z.of_nat n) 1 <? 2^8))
     (seq 0 256) = true) by (vm_compute; reflexivity).
  rewrite forallb_forall in F. specialize (F (Z.to_nat x)). rewrite Z2Nat.id in F by lia. specialize (F ltac:(apply in_seq; lia)).
  apply andb_prop in F as [F F3]. apply andb_prop in F as [F1 F2]. apply Z.eqb_eq in F1. lia.
Qed.
Section B.
Variable bld : build.
Lemma decode_finish_ok sha h i p qf d f h1 f1 : wf_part p -> decode_finish bld sha h i p qf d f = (h1, f1, Ok tt) ->
  h1 = set_part h i (decoded_part p) /\ exists f0, f1 = fwrite_at f0 0 (enc_header h1).
Proof.
  intros W. unfold decode_finish. destruct (match d with DCopy _ => _ | _ => _ end) as [f2 [n|e| |]]; try discriminate.
  destruct (n <? 0); [discriminate|]. destruct (negb _); [discriminate|]. intros X. injection X as <- <-.
  destruct W as (_ & _ & _ & _ & _ & Wf & _). destruct (clear_bit _ Wf) as [E _]. rewrite E. split; [reflexivity|].
  eexists. reflexivity.
Qed.
Lemma decode_part_ok sha origin inp h i p pos f h1 f1 pos1 : wf_part p -> decode_part bld sha origin inp h i p pos f = (h1, f1, pos1, Ok tt) ->
  h1 = set_part h i (decoded_part p) /\ exists f0, f1 = fwrite_at f0 0 (enc_header h1).
Proof.
  intros W. unfold decode_part. destruct (match origin with Some _ => _ | None => _ end) as [[]|e| |]; try discriminate.
  destruct (decode_start bld h p origin) as [d|e| |]; try discriminate.
  destruct (decode_chunks _ _ _ _ _ _ _ _ _ _) as [[[d1 f2] pos2] [u|e| |]]; try discriminate.
  destruct (decode_finish _ _ _ _ _ _ _ _) as [[h2 f3] r2] eqn:E. intros X. injection X as <- <- <- ->. eapply decode_finish_ok; eauto.
Qed.
Lemma wf_decoded p : wf_part p -> wf_part (decoded_part p).
Proof.
  intros (A & B & C & D & E & F & G). unfold wf_part, decoded_part. cbn. destruct (clear_bit _ F) as [_ X]. repeat split; try apply A; try apply B; try apply C; try apply E; try apply X; try apply G; lia.
Qed.
Lemma wf_set_part h i p : wf_header h -> wf_part p -> wf_header (set_part h i p).
Proof.
  intros W P. destruct W. unfold set_part. constructor; cbn [with_parts h_magic h_pad0 h_meta h_parts h_metadata h_hash_kind h_signature_kind h_alignment h_payload_hash h_key_id h_keystore_id h_pad1 h_signature h_signature_sz]; auto.
  destruct wf_parts as [L F]. rewrite length_list_upd. split; [exact L|]. apply Forall_list_upd; auto.
Qed.
Lemma ztake_header h f : wf_header h -> ztake 4096 (fwrite_at f 0 (enc_header h)) = enc_header h.
Proof.
  intros W. pose proof (zlen_enc_header h W) as L. rewrite fwrite_0, ztake_app_r by lia. rewrite L. change (4096 - 4096) with 0. unfold ztake at 1. cbn [Z.to_nat firstn]. apply app_nil_r.
Qed.
Lemma skipn_cons {A} i (l : list A) x : nth_error l i = Some x -> skipn i l = x :: skipn (S i) l.
Proof. revert l. induction i as [|i IH]; intros [|y l] E; try discriminate; cbn in *; [congruence|]. now apply IH. Qed.
Lemma decode_loop_sound sha origin inp : forall n h i pos f h1 f1, wf_header h -> (i + n = 32)%nat ->
  decode_loop bld sha origin inp n h i pos f = (h1, f1, Ok tt) ->
  h1 = with_parts h (firstn i (h_parts h) ++ decoded_table (skipn i (h_parts h))) /\ wf_header h1 /\
  ((exists p r, skipn i (h_parts h) = p :: r /\ p_id p <> 0) \/ ztake 4096 f = enc_header h -> ztake 4096 f1 = enc_header h1).
Proof.
  induction n as [|n IH]; intros h i pos f h1 f1 W Hn E.
  { cbn [decode_loop] in E. injection E as <- <-. pose proof (proj1 (wf_parts _ W)) as L.
    rewrite firstn_all2, skipn_all2 by lia. cbn [decoded_table]. rewrite app_nil_r, with_parts_id. split; [reflexivity|]. split; [exact W|].
    intros [(p & r & X & _)|X]; [discriminate|exact X]. }
  cbn [decode_loop] in E. destruct (nth_error (h_parts h) i) as [p|] eqn:Ep; [|discriminate].
  pose proof (skipn_cons _ _ _ Ep) as SK. rewrite SK. cbn [decoded_table].
  destruct (Z.eqb_spec (p_id p) 0) as [Z0|Z0].
  { injection E as <- <-. rewrite <- SK, firstn_skipn, with_parts_id. split; [reflexivity|]. split; [exact W|].
    intros [(q & r & X & Y)|X]; [|exact X]. congruence. }
  assert (P : wf_part p) by (eapply Forall_forall; [exact (proj2 (wf_parts _ W))|eapply nth_error_In; exact Ep]).
  destruct (decode_part bld sha origin inp h i p pos f) as [[[h2 f2] pos2] [[]|x| |]] eqn:ED; try discriminate.
  apply decode_part_ok in ED as [E2 [f0 F2]]; [|exact P].
  assert (W2 : wf_header h2) by (rewrite E2; apply wf_set_part; [exact W|now apply wf_decoded]).
  destruct (IH h2 (S i) pos2 f2 h1 f1 W2 ltac:(lia) E) as (A & B & C).
  assert (Hi : (i < length (h_parts h))%nat) by (apply nth_error_Some; congruence).
  split; [|split; [exact B|]].
  - rewrite A, E2. clear A B C E E2 W2 F2. set (L := list_upd i (decoded_part p) (h_parts h)).
    transitivity (with_parts h (firstn (S i) L ++ decoded_table (skipn (S i) L))); [reflexivity|]. f_equal. unfold L. clear L.
    assert (SP : list_upd i (decoded_part p) (h_parts h) = firstn i (h_parts h) ++ decoded_part p :: skipn (S i) (h_parts h)).
    { rewrite <- (firstn_skipn i (h_parts h)) at 1. rewrite SK.
      replace i with (length (firstn i (h_parts h))) at 1 by (rewrite firstn_length; lia). apply list_upd_middle. }
    rewrite SP. assert (LF : length (firstn i (h_parts h)) = i) by (rewrite firstn_length; lia).
    rewrite firstn_app, skipn_app, LF. rewrite (firstn_all2 (n := S i) (firstn i (h_parts h))) by lia. rewrite (skipn_all2 (n := S i) (firstn i (h_parts h))) by lia.
    replace (S i - i)%nat with 1%nat by lia. cbn [firstn skipn app]. rewrite <- app_assoc. reflexivity.
  - intros _. apply C. right. rewrite F2. now apply ztake_header.
Qed.
Lemma decode_sound sha p f origin h1 f1 : wf_header (pk_header p) -> transport_decode bld sha p f origin = (h1, f1, Ok tt) ->
  h1 = with_parts (pk_header p) (decoded_table (h_parts (pk_header p))) /\
  (match h_parts (pk_header p) with q :: _ => p_id q <> 0 | [] => False end -> ztake 4096 f1 = enc_header h1).
Proof.
  intros W. unfold transport_decode. destruct (match origin with Some _ => _ | None => _ end) as [u|x| |]; try discriminate.
  intros E. apply decode_loop_sound in E as (A & B & C); [|exact W|reflexivity]. cbn [firstn skipn app] in *. split; [exact A|].
  intros H. apply C. left. destruct (h_parts (pk_header p)) as [|q r]; [contradiction|]. eauto.
Qed.

(* ---- what cannot be decoded is refused ---- *)
Lemma refuse_gen sha origin inp e j M D :
  (forall h pos f, h_meta h = M -> h_metadata h = D -> snd (decode_part bld sha origin inp h j e pos f) <> Ok tt) ->
  forall n h i pos f, (i <= j < i + n)%nat -> h_meta h = M -> h_metadata h = D ->
  nth_error (h_parts h) j = Some e -> Forall (fun q => p_id q <> 0) (firstn (j - i) (skipn i (h_parts h))) -> p_id e <> 0 ->
  snd (decode_loop bld sha origin inp n h i pos f) <> Ok tt.
Proof.
  intros HD. induction n as [|n IH]; intros h i pos f Hj HM HDD He NZ Hid; [lia|].
  cbn [decode_loop]. destruct (Nat.eq_dec i j) as [->|N].
  - rewrite He. destruct (Z.eqb_spec (p_id e) 0); [contradiction|]. specialize (HD h pos f HM HDD).
    destruct (decode_part bld sha origin inp h j e pos f) as [[[h1 f1] pos1] [[]|x| |]]; cbn [snd] in *; try discriminate. contradiction.
  - destruct (nth_error (h_parts h) i) as [p|] eqn:Hp; [|discriminate].
    pose proof (skipn_cons _ _ _ Hp) as SK.
    rewrite SK in NZ. replace (j - i)%nat with (S (j - S i)) in NZ by lia. cbn [firstn] in NZ. inversion NZ as [|? ? NZ1 NZ2]; subst.
    destruct (Z.eqb_spec (p_id p) 0); [contradiction|].
    destruct (decode_part bld sha origin inp h i p pos f) as [[[h1 f1] pos1] [[]|x| |]] eqn:E; try discriminate.
    apply decode_part_keeps in E.
    assert (K : nth_error (h_parts h1) j = Some e /\ skipn (S i) (h_parts h1) = skipn (S i) (h_parts h) /\ h_meta h1 = h_meta h /\ h_metadata h1 = h_metadata h).
    { destruct E as [->|[q ->]]; [auto|]. unfold set_part. cbn [with_parts h_parts h_meta h_metadata]. split; [|split; [|auto]].
      - rewrite nth_error_list_upd_other; auto.
      - clear. revert i. induction (h_parts h) as [|x l IH]; intros [|i]; try reflexivity. cbn [list_upd skipn]. apply IH. }
    destruct K as (K1 & K2 & K3 & K4). apply IH; auto; try lia. now rewrite K2.
Qed.
Lemma refuse_pkg sha p (es : list (parth * bytes)) f origin e : holds p es -> In e es ->
  (forall i h pos f, h_meta h = h_meta (pk_header p) -> h_metadata h = h_metadata (pk_header p) -> snd (decode_part bld sha origin (pk_file p) h i (fst e) pos f) <> Ok tt) ->
  snd (transport_decode bld sha p f origin) <> Ok tt.
Proof.
  intros H Hin HD. unfold transport_decode.
  destruct (match origin with Some _ => _ | None => _ end) as [[]|x| |]; try discriminate.
  destruct (in_split _ _ Hin) as (a & c & ->). pose proof (ho_table _ _ H) as TB. rewrite map_app in TB. cbn [map] in TB. rewrite <- app_assoc in TB. cbn [app] in TB.
  pose proof (ho_nonzero _ _ H) as NZ. pose proof (ho_count _ _ H) as CN. rewrite app_length in CN. cbn [length] in CN.
  apply Forall_app in NZ as [NZ1 NZ2]. inversion NZ2 as [|? ? NZ3 _]; subst.
  apply (refuse_gen sha origin (pk_file p) (fst e) (length a) _ _ (HD (length a)) MAX_PARTS (pk_header p) 0 HDR_SIZE f); auto.
  - unfold MAX_PARTS. lia.
  - rewrite TB. rewrite nth_error_app2 by (rewrite map_length; lia). rewrite map_length, Nat.sub_diag. reflexivity.
  - cbn [skipn]. rewrite Nat.sub_0_r, TB. rewrite firstn_app, map_length, Nat.sub_diag. cbn [firstn]. rewrite app_nil_r.
    rewrite firstn_all2 by (rewrite map_length; lia). apply Forall_map. exact NZ1.
Qed.
(* the algorithm recorded for decoding a part that is flagged as encoded *)
Lemma decoder_id_of h0 h p enc dec : wf_header h0 -> h_meta h = h_meta h0 -> h_metadata h = h_metadata h0 -> Z.testbit (p_flags p) 1 = true ->
  0 <= enc < 2^32 -> 0 <= dec < 2^32 -> meta_starts h0 bpak_transport (p_id p) (le 4 enc ++ le 4 dec) -> decoder_id h p = Ok dec.
Proof.
  intros W M D T He Hd Ms. destruct (setting_get _ _ _ _ W He Hd Ms) as (m & b1 & b2 & Gm & _ & _ & M2 & U2).
  unfold decoder_id. rewrite has_flag_transport, T. unfold get_meta, get_meta_int in *. rewrite M. rewrite Gm.
  unfold meta_read in *. rewrite M, D. rewrite M2. cbn [bind]. now rewrite U2.
Qed.
Lemma refuse_unknown sha p (es : list (parth * bytes)) f origin e enc dec : holds p es -> In e es -> Z.testbit (p_flags (fst e)) 1 = true ->
  0 <= enc < 2^32 -> 0 <= dec < 2^32 -> meta_starts (pk_header p) bpak_transport (p_id (fst e)) (le 4 enc ++ le 4 dec) ->
  ~ In dec [0; 0xb5964388; 0x75622592; 0x933a9893; 0xb5bcc58f] ->
  snd (transport_decode bld sha p f origin) <> Ok tt.
Proof.
  intros H Hin T He Hd Ms NI. apply (refuse_pkg sha p es f origin e H Hin). intros i h pos f0 M D.
  unfold decode_part. destruct (match origin with Some _ => _ | None => _ end) as [[]|x| |]; try discriminate.
  unfold decode_start. rewrite (decoder_id_of (pk_header p) h (fst e) enc dec (ho_wf _ _ H) M D T He Hd Ms). cbn [bind].
  cbn [In] in NI. change ID_BSPATCH with 0xb5964388. change ID_BSPATCH_NO_COMP with 0x75622592. change ID_BSPATCH_LZMA with 0x933a9893. change ID_MERKLE_GENERATE with 0xb5bcc58f.
  destruct (Z.eqb_spec dec 0xb5964388); [intuition|]. destruct (Z.eqb_spec dec 0x75622592); [intuition|]. destruct (Z.eqb_spec dec 0x933a9893); [intuition|].
  destruct (Z.eqb_spec dec 0xb5bcc58f); [intuition|]. destruct (Z.eqb_spec dec 0); [intuition|]. cbn. discriminate.
Qed.
Lemma refuse_no_origin sha p (es : list (parth * bytes)) f e enc dec : holds p es -> In e es -> Z.testbit (p_flags (fst e)) 1 = true ->
  0 <= enc < 2^32 -> 0 <= dec < 2^32 -> meta_starts (pk_header p) bpak_transport (p_id (fst e)) (le 4 enc ++ le 4 dec) ->
  In dec [0xb5964388; 0x75622592; 0x933a9893] ->
  snd (transport_decode bld sha p f None) <> Ok tt.
Proof.
  intros H Hin T He Hd Ms NI. apply (refuse_pkg sha p es f None e H Hin). intros i h pos f0 M D.
  unfold decode_part, decode_start. rewrite (decoder_id_of (pk_header p) h (fst e) enc dec (ho_wf _ _ H) M D T He Hd Ms). cbn [bind].
  cbn [In] in NI. change ID_BSPATCH with 0xb5964388. change ID_BSPATCH_NO_COMP with 0x75622592. change ID_BSPATCH_LZMA with 0x933a9893.
  destruct NI as [<-|[<-|[<-|[]]]]; cbn; discriminate.
Qed.
Lemma refuse_not_in_origin sha p (es : list (parth * bytes)) f q (eo : list (parth * bytes)) e : holds p es -> In e es -> holds q eo ->
  ~ In (p_id (fst e)) (map (fun o => p_id (fst o)) eo) ->
  snd (transport_decode bld sha p f (Some q)) <> Ok tt.
Proof.
  intros H Hin Hq NI. apply (refuse_pkg sha p es f (Some q) e H Hin). intros i h pos f0 M D.
  unfold decode_part. pose proof (ho_nonzero _ _ H) as NZ. rewrite Forall_forall in NZ.
  rewrite (get_part_none q eo (p_id (fst e)) Hq) by auto. discriminate.
Qed.
End B.
