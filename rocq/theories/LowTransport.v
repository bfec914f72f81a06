(* LowTransport.v -- codes of the patch and transport functions *)
From Verif Require Import LowTac LowBase LowPkg PkgModel BaseLemmas HeaderSpec CodecProofs CrcModel PkgApi HeaderModel HashModel MerkleModel VerifyModel BspatchModel BsdiffModel HsModel HsPatchModel LzModel TransportModel TransportCliModel.

Lemma low_offtout : forall x0, low (offtout x0).
Proof. intros. unfold offtout. lows. Qed.
#[export] Hint Resolve low_offtout : low.
Lemma low_read_origin : forall x0 x1 x2, low (read_origin x0 x1 x2).
Proof. intros. unfold read_origin. lows. Qed.
#[export] Hint Resolve low_read_origin : low.
Lemma low_bs_next : forall x0, low (bs_next x0).
Proof. intros. unfold bs_next. lows. Qed.
#[export] Hint Resolve low_bs_next : low.
Lemma low_bs_loop : forall x0 x1 x2 x3 x4 x5 x6 x7, low (snd (bs_loop x0 x1 x2 x3 x4 x5 x6 x7)).
Proof. intros x0 x1 x2 x3 x4 x5 x6 x7. intros. gens x4. induction x4; intros; cbn [bs_loop]; lows. Qed.
#[export] Hint Resolve low_bs_loop : low.
Lemma low_bspatch_write : forall x0 x1 x2 x3 x4 x5 x6, low (snd (bspatch_write x0 x1 x2 x3 x4 x5 x6)).
Proof. intros. unfold bspatch_write. lows. Qed.
#[export] Hint Resolve low_bspatch_write : low.
Lemma low_bspatch_final : forall x0, low (bspatch_final x0).
Proof. intros. unfold bspatch_final. lows. Qed.
#[export] Hint Resolve low_bspatch_final : low.
Lemma low_bspatch_chunks : forall x0 x1 x2 x3 x4 x5 x6, low (snd (bspatch_chunks x0 x1 x2 x3 x4 x5 x6)).
Proof. intros x0 x1 x2 x3 x4 x5 x6. intros. gens x6. induction x6; intros; cbn [bspatch_chunks]; lows. Qed.
#[export] Hint Resolve low_bspatch_chunks : low.
Lemma low_getz : forall x0 x1, low (getz x0 x1).
Proof. intros. unfold getz. lows. Qed.
#[export] Hint Resolve low_getz : low.
Lemma low_sa_suffix : forall x0 x1 x2, low (sa_suffix x0 x1 x2).
Proof. intros. unfold sa_suffix. lows. Qed.
#[export] Hint Resolve low_sa_suffix : low.
Lemma low_search : forall x0 x1 x2 x3 x4 x5, low (search x0 x1 x2 x3 x4 x5).
Proof. intros x0 x1 x2 x3 x4 x5. intros. gens x0. induction x0; intros; cbn [search]; lows. Qed.
#[export] Hint Resolve low_search : low.
Lemma low_fwd_loop : forall x0 x1 x2 x3 x4 x5 x6 x7, low (fwd_loop x0 x1 x2 x3 x4 x5 x6 x7).
Proof. intros x0 x1 x2 x3 x4 x5 x6 x7. intros. gens x2. induction x2; intros; cbn [fwd_loop]; lows. Qed.
#[export] Hint Resolve low_fwd_loop : low.
Lemma low_bwd_loop : forall x0 x1 x2 x3 x4 x5 x6 x7, low (bwd_loop x0 x1 x2 x3 x4 x5 x6 x7).
Proof. intros x0 x1 x2 x3 x4 x5 x6 x7. intros. gens x2. induction x2; intros; cbn [bwd_loop]; lows. Qed.
#[export] Hint Resolve low_bwd_loop : low.
Lemma low_overlap_loop : forall x0 x1 x2 x3 x4 x5 x6 x7 x8 x9 x10, low (overlap_loop x0 x1 x2 x3 x4 x5 x6 x7 x8 x9 x10).
Proof. intros x0 x1 x2 x3 x4 x5 x6 x7 x8 x9 x10. intros. gens x2. induction x2; intros; cbn [overlap_loop]; lows. Qed.
#[export] Hint Resolve low_overlap_loop : low.
Lemma low_diff_bytes : forall x0 x1 x2 x3 x4, low (diff_bytes x0 x1 x2 x3 x4).
Proof. intros x0 x1 x2 x3 x4. intros. gens x2. induction x2; intros; cbn [diff_bytes]; lows. Qed.
#[export] Hint Resolve low_diff_bytes : low.
Lemma low_diff_chunks : forall x0 x1 x2 x3 x4 x5, low (diff_chunks x0 x1 x2 x3 x4 x5).
Proof. intros x0 x1 x2 x3 x4 x5. intros. gens x2. induction x2; intros; cbn [diff_chunks]; lows. Qed.
#[export] Hint Resolve low_diff_chunks : low.
Lemma low_write_diff : forall x0 x1 x2, low (write_diff x0 x1 x2).
Proof. intros. unfold write_diff. lows. Qed.
#[export] Hint Resolve low_write_diff : low.
Lemma low_score_loop : forall x0 x1 x2 x3 x4 x5 x6, low (score_loop x0 x1 x2 x3 x4 x5 x6).
Proof. intros x0 x1 x2 x3 x4 x5 x6. intros. gens x2. induction x2; intros; cbn [score_loop]; lows. Qed.
#[export] Hint Resolve low_score_loop : low.
Lemma low_scan_loop : forall x0 x1 x2 x3 x4 x5 x6, low (scan_loop x0 x1 x2 x3 x4 x5 x6).
Proof. intros x0 x1 x2 x3 x4 x5 x6. intros. gens x3. induction x3; intros; cbn [scan_loop]; lows. Qed.
#[export] Hint Resolve low_scan_loop : low.
Lemma low_main_loop : forall x0 x1 x2 x3 x4, low (main_loop x0 x1 x2 x3 x4).
Proof. intros x0 x1 x2 x3 x4. intros. gens x3. induction x3; intros; cbn [main_loop]; lows. Qed.
#[export] Hint Resolve low_main_loop : low.
Lemma low_bsdiff_chunks : forall x0 x1 x2, low (bsdiff_chunks x0 x1 x2).
Proof. intros. unfold bsdiff_chunks. lows. Qed.
#[export] Hint Resolve low_bsdiff_chunks : low.
Lemma low_bsdiff_none : forall x0 x1 x2 x3 x4, low (bsdiff_none x0 x1 x2 x3 x4).
Proof. intros. unfold bsdiff_none. lows. Qed.
#[export] Hint Resolve low_bsdiff_none : low.
Lemma low_get_bits_loop : forall x0 x1 x2, low (get_bits_loop x0 x1 x2).
Proof. intros x0 x1 x2. intros. gens x0. induction x0; intros; cbn [get_bits_loop]; lows. Qed.
#[export] Hint Resolve low_get_bits_loop : low.
Lemma low_get_bits : forall x0 x1, low (get_bits x0 x1).
Proof. intros. unfold get_bits. lows. Qed.
#[export] Hint Resolve low_get_bits : low.
Lemma low_push_byte : forall x0 x1 x2, low (push_byte x0 x1 x2).
Proof. intros. unfold push_byte. lows. Qed.
#[export] Hint Resolve low_push_byte : low.
Lemma low_d_tag : forall x0, low (d_tag x0).
Proof. intros. unfold d_tag. lows. Qed.
#[export] Hint Resolve low_d_tag : low.
Lemma low_d_lit : forall x0 x1 x2, low (d_lit x0 x1 x2).
Proof. intros. unfold d_lit. lows. Qed.
#[export] Hint Resolve low_d_lit : low.
Lemma low_d_idx : forall x0, low (d_idx x0).
Proof. intros. unfold d_idx. lows. Qed.
#[export] Hint Resolve low_d_idx : low.
Lemma low_d_cnt : forall x0, low (d_cnt x0).
Proof. intros. unfold d_cnt. lows. Qed.
#[export] Hint Resolve low_d_cnt : low.
Lemma low_d_copy : forall x0 x1 x2 x3, low (d_copy x0 x1 x2 x3).
Proof. intros x0 x1 x2 x3. intros. gens x1. induction x1; intros; cbn [d_copy]; lows. Qed.
#[export] Hint Resolve low_d_copy : low.
Lemma low_d_ref : forall x0 x1 x2, low (d_ref x0 x1 x2).
Proof. intros. unfold d_ref. lows. Qed.
#[export] Hint Resolve low_d_ref : low.
Lemma low_d_step : forall x0 x1 x2, low (d_step x0 x1 x2).
Proof. intros. unfold d_step. lows. Qed.
#[export] Hint Resolve low_d_step : low.
Lemma low_d_poll_loop : forall x0 x1 x2 x3, low (d_poll_loop x0 x1 x2 x3).
Proof. intros x0 x1 x2 x3. intros. gens x0. induction x0; intros; cbn [d_poll_loop]; lows. Qed.
#[export] Hint Resolve low_d_poll_loop : low.
Lemma low_d_poll : forall x0 x1, low (d_poll x0 x1).
Proof. intros. unfold d_poll. lows. Qed.
#[export] Hint Resolve low_d_poll : low.
Lemma low_e_sink : forall x0 x1, low (e_sink x0 x1).
Proof. intros. unfold e_sink. lows. Qed.
#[export] Hint Resolve low_e_sink : low.
Lemma low_e_get : forall x0 x1, low (e_get x0 x1).
Proof. intros. unfold e_get. lows. Qed.
#[export] Hint Resolve low_e_get : low.
Lemma low_e_match_len : forall x0 x1 x2 x3 x4 x5, low (e_match_len x0 x1 x2 x3 x4 x5).
Proof. intros x0 x1 x2 x3 x4 x5. intros. gens x0. induction x0; intros; cbn [e_match_len]; lows. Qed.
#[export] Hint Resolve low_e_match_len : low.
Lemma low_e_find_loop : forall x0 x1 x2 x3 x4 x5 x6 x7, low (e_find_loop x0 x1 x2 x3 x4 x5 x6 x7).
Proof. intros x0 x1 x2 x3 x4 x5 x6 x7. intros. gens x0. induction x0; intros; cbn [e_find_loop]; lows. Qed.
#[export] Hint Resolve low_e_find_loop : low.
Lemma low_e_find : forall x0 x1 x2 x3, low (e_find x0 x1 x2 x3).
Proof. intros. unfold e_find. lows. Qed.
#[export] Hint Resolve low_e_find : low.
Lemma low_e_search : forall x0, low (e_search x0).
Proof. intros. unfold e_search. lows. Qed.
#[export] Hint Resolve low_e_search : low.
Lemma low_e_out : forall x0 x1 x2, low (e_out x0 x1 x2).
Proof. intros. unfold e_out. lows. Qed.
#[export] Hint Resolve low_e_out : low.
Lemma low_push_bits_loop : forall x0 x1 x2 x3 x4 x5, low (push_bits_loop x0 x1 x2 x3 x4 x5).
Proof. intros x0 x1 x2 x3 x4 x5. intros. gens x0. induction x0; intros; cbn [push_bits_loop]; lows. Qed.
#[export] Hint Resolve low_push_bits_loop : low.
Lemma low_push_bits : forall x0 x1 x2 x3 x4, low (push_bits x0 x1 x2 x3 x4).
Proof. intros. unfold push_bits. lows. Qed.
#[export] Hint Resolve low_push_bits : low.
Lemma low_push_outgoing : forall x0 x1 x2, low (push_outgoing x0 x1 x2).
Proof. intros. unfold push_outgoing. lows. Qed.
#[export] Hint Resolve low_push_outgoing : low.
Lemma low_e_tag : forall x0 x1 x2, low (e_tag x0 x1 x2).
Proof. intros. unfold e_tag. lows. Qed.
#[export] Hint Resolve low_e_tag : low.
Lemma low_e_lit : forall x0 x1 x2, low (e_lit x0 x1 x2).
Proof. intros. unfold e_lit. lows. Qed.
#[export] Hint Resolve low_e_lit : low.
Lemma low_e_idx : forall x0 x1 x2, low (e_idx x0 x1 x2).
Proof. intros. unfold e_idx. lows. Qed.
#[export] Hint Resolve low_e_idx : low.
Lemma low_e_len : forall x0 x1 x2, low (e_len x0 x1 x2).
Proof. intros. unfold e_len. lows. Qed.
#[export] Hint Resolve low_e_len : low.
Lemma low_e_save : forall x0, low (e_save x0).
Proof. intros. unfold e_save. lows. Qed.
#[export] Hint Resolve low_e_save : low.
Lemma low_e_flush : forall x0 x1 x2, low (e_flush x0 x1 x2).
Proof. intros. unfold e_flush. lows. Qed.
#[export] Hint Resolve low_e_flush : low.
Lemma low_e_step : forall x0 x1 x2, low (e_step x0 x1 x2).
Proof. intros. unfold e_step. lows. Qed.
#[export] Hint Resolve low_e_step : low.
Lemma low_e_poll_loop : forall x0 x1 x2 x3, low (e_poll_loop x0 x1 x2 x3).
Proof. intros x0 x1 x2 x3. intros. gens x0. induction x0; intros; cbn [e_poll_loop]; lows. Qed.
#[export] Hint Resolve low_e_poll_loop : low.
Lemma low_e_poll : forall x0 x1, low (e_poll x0 x1).
Proof. intros. unfold e_poll. lows. Qed.
#[export] Hint Resolve low_e_poll : low.
Lemma low_d_run : forall x0 x1, low (d_run x0 x1).
Proof. intros x0 x1. intros. gens x1. induction x1; intros; cbn [d_run]; lows. Qed.
#[export] Hint Resolve low_d_run : low.
Lemma low_e_run : forall x0 x1, low (e_run x0 x1).
Proof. intros x0 x1. intros. gens x1. induction x1; intros; cbn [e_run]; lows. Qed.
#[export] Hint Resolve low_e_run : low.
Lemma low_hsc_poll : forall x0 x1, low (hsc_poll x0 x1).
Proof. intros x0 x1. intros. gens x0. induction x0; intros; cbn [hsc_poll]; lows. Qed.
#[export] Hint Resolve low_hsc_poll : low.
Lemma low_hsc_loop : forall x0 x1 x2, low (hsc_loop x0 x1 x2).
Proof. intros x0 x1 x2. intros. gens x0. induction x0; intros; cbn [hsc_loop]; lows. Qed.
#[export] Hint Resolve low_hsc_loop : low.
Lemma low_hsc_write : forall x0 x1, low (hsc_write x0 x1).
Proof. intros. unfold hsc_write. lows. Qed.
#[export] Hint Resolve low_hsc_write : low.
Lemma low_hsc_final : forall x0 x1, low (hsc_final x0 x1).
Proof. intros x0 x1. intros. gens x0. induction x0; intros; cbn [hsc_final]; lows. Qed.
#[export] Hint Resolve low_hsc_final : low.
Lemma low_hsc_writes : forall x0 x1, low (hsc_writes x0 x1).
Proof. intros x0 x1. intros. gens x1. induction x1; intros; cbn [hsc_writes]; lows. Qed.
#[export] Hint Resolve low_hsc_writes : low.
Lemma low_bsdiff_hs : forall x0 x1 x2 x3 x4, low (bsdiff_hs x0 x1 x2 x3 x4).
Proof. intros. unfold bsdiff_hs. lows. Qed.
#[export] Hint Resolve low_bsdiff_hs : low.
Lemma low_hsp_poll : forall x0 x1 x2 x3 x4 x5 x6 x7, low (snd (hsp_poll x0 x1 x2 x3 x4 x5 x6 x7)).
Proof. intros x0 x1 x2 x3 x4 x5 x6 x7. intros. gens x5. induction x5; intros; cbn [hsp_poll]; lows. Qed.
#[export] Hint Resolve low_hsp_poll : low.
Lemma low_hsp_loop : forall x0 x1 x2 x3 x4 x5 x6 x7 x8, low (snd (hsp_loop x0 x1 x2 x3 x4 x5 x6 x7 x8)).
Proof. intros x0 x1 x2 x3 x4 x5 x6 x7 x8. intros. gens x5. induction x5; intros; cbn [hsp_loop]; lows. Qed.
#[export] Hint Resolve low_hsp_loop : low.
Lemma low_hsp_write : forall x0 x1 x2 x3 x4 x5 x6 x7, low (snd (hsp_write x0 x1 x2 x3 x4 x5 x6 x7)).
Proof. intros. unfold hsp_write. lows. Qed.
#[export] Hint Resolve low_hsp_write : low.
Lemma low_hsp_chunks : forall x0 x1 x2 x3 x4 x5 x6 x7, low (snd (hsp_chunks x0 x1 x2 x3 x4 x5 x6 x7)).
Proof. intros x0 x1 x2 x3 x4 x5 x6 x7. intros. gens x7. induction x7; intros; cbn [hsp_chunks]; lows. Qed.
#[export] Hint Resolve low_hsp_chunks : low.
Lemma low_lzc_loop : forall x0 x1 x2 x3, low (lzc_loop x0 x1 x2 x3).
Proof. intros x0 x1 x2 x3. intros. gens x1. induction x1; intros; cbn [lzc_loop]; lows. Qed.
#[export] Hint Resolve low_lzc_loop : low.
Lemma low_lzc_write : forall x0 x1 x2, low (lzc_write x0 x1 x2).
Proof. intros. unfold lzc_write. lows. Qed.
#[export] Hint Resolve low_lzc_write : low.
Lemma low_lzc_final_loop : forall x0 x1 x2, low (lzc_final_loop x0 x1 x2).
Proof. intros x0 x1 x2. intros. gens x1. induction x1; intros; cbn [lzc_final_loop]; lows. Qed.
#[export] Hint Resolve low_lzc_final_loop : low.
Lemma low_lzc_final : forall x0 x1, low (lzc_final x0 x1).
Proof. intros. unfold lzc_final. lows. Qed.
#[export] Hint Resolve low_lzc_final : low.
Lemma low_lzc_writes : forall x0 x1 x2, low (lzc_writes x0 x1 x2).
Proof. intros x0 x1 x2. intros. gens x2. induction x2; intros; cbn [lzc_writes]; lows. Qed.
#[export] Hint Resolve low_lzc_writes : low.
Lemma low_bsdiff_lz : forall x0 x1 x2 x3 x4 x5, low (bsdiff_lz x0 x1 x2 x3 x4 x5).
Proof. intros. unfold bsdiff_lz. lows. Qed.
#[export] Hint Resolve low_bsdiff_lz : low.
Lemma low_lzp_loop : forall x0 x1 x2 x3 x4 x5 x6 x7 x8 x9, low (snd (lzp_loop x0 x1 x2 x3 x4 x5 x6 x7 x8 x9)).
Proof. intros x0 x1 x2 x3 x4 x5 x6 x7 x8 x9. intros. gens x5. induction x5; intros; cbn [lzp_loop]; lows. Qed.
#[export] Hint Resolve low_lzp_loop : low.
Lemma low_lzp_write : forall x0 x1 x2 x3 x4 x5 x6 x7, low (snd (lzp_write x0 x1 x2 x3 x4 x5 x6 x7)).
Proof. intros. unfold lzp_write. lows. Qed.
#[export] Hint Resolve low_lzp_write : low.
Lemma low_lzp_final : forall x0 x1 x2 x3 x4 x5 x6, low (snd (lzp_final x0 x1 x2 x3 x4 x5 x6)).
Proof. intros. unfold lzp_final. lows. Qed.
#[export] Hint Resolve low_lzp_final : low.
Lemma low_lzp_chunks : forall x0 x1 x2 x3 x4 x5 x6 x7, low (snd (lzp_chunks x0 x1 x2 x3 x4 x5 x6 x7)).
Proof. intros x0 x1 x2 x3 x4 x5 x6 x7. intros. gens x7. induction x7; intros; cbn [lzp_chunks]; lows. Qed.
#[export] Hint Resolve low_lzp_chunks : low.
Lemma low_lzp_all : forall x0 x1 x2 x3 x4 x5 x6, low (snd (lzp_all x0 x1 x2 x3 x4 x5 x6)).
Proof. intros. unfold lzp_all. lows. Qed.
#[export] Hint Resolve low_lzp_all : low.
Lemma low_tcopy_loop : forall x0 x1 x2 x3 x4 x5, low (snd (tcopy_loop x0 x1 x2 x3 x4 x5)).
Proof. intros x0 x1 x2 x3 x4 x5. intros. gens x0. induction x0; intros; cbn [tcopy_loop]; lows. Qed.
#[export] Hint Resolve low_tcopy_loop : low.
Lemma low_transport_copy : forall x0 x1 x2 x3 x4, low (snd (transport_copy x0 x1 x2 x3 x4)).
Proof. intros. unfold transport_copy. lows. Qed.
#[export] Hint Resolve low_transport_copy : low.
Lemma low_transport_bsdiff : forall x0 x1 x2 x3 x4 x5 x6 x7 x8 x9 x10, low (snd (transport_bsdiff x0 x1 x2 x3 x4 x5 x6 x7 x8 x9 x10)).
Proof. intros. unfold transport_bsdiff. lows. Qed.
#[export] Hint Resolve low_transport_bsdiff : low.
Lemma write_all_pos : forall l (f : bytes) off pos, 0 <= pos -> 0 <= snd (write_all f off pos l).
Proof. induction l as [| b r IH]; intros f off pos H; cbn [write_all snd]; [exact H |]. apply IH. pose proof (Zle_0_nat (length b)). unfold zlen. lia. Qed.
Lemma write_all_pos' : forall l (f : bytes) off f' n, Ok (write_all f off 0 l) = Ok (f', n) -> 0 <= n.
Proof. intros l f off f' n E. assert (E2 : write_all f off 0 l = (f', n)) by congruence. pose proof (write_all_pos l f off 0 (Z.le_refl 0)) as H. rewrite E2 in H. exact H. Qed.
Lemma transport_bsdiff_pos : forall bld sais target toff tlen origin ooff olen out woff comp out1 n,
  transport_bsdiff bld sais target toff tlen origin ooff olen out woff comp = (out1, Ok n) -> 0 <= n.
Proof.
  intros bld sais target toff tlen origin ooff olen out woff comp out1 n E. unfold transport_bsdiff in E.
  repeat match type of E with (if ?c then _ else _) = _ => destruct c; [discriminate |] end.
  cbv zeta in E. destruct (sais (slice ooff olen origin)) as [sa |]; [| discriminate].
  match type of E with match ?x with _ => _ end = _ => destruct x as [[o1 m] | | |] eqn:X; try discriminate end.
  assert (m = n) by congruence. subst m. clear E. destruct comp.
  all: unfold bsdiff_none, bsdiff_hs, bsdiff_lz in X.
  all: repeat match type of X with bind ?x _ = _ => let Y := fresh in destruct x eqn:Y; cbn [bind] in X; try discriminate
       | (let (a, b) := ?x in _) = _ => destruct x end.
  all: eapply write_all_pos'; exact X.
Qed.
Lemma low_transport_encode_part : forall bld sais alg id ih inp oh out origin, low (snd (transport_encode_part bld sais alg id ih inp oh out origin)).
Proof.
  intros bld sais alg id ih inp oh out origin. unfold transport_encode_part. cbv zeta.
  match goal with |- low (snd (match ?x with _ => _ end)) => assert (S : low x) by lows; destruct x as [[[[ip j] op] gp] | | |]; [clear S | exact S | exact I | exact I] end.
  destruct (has_flag op FLAG_TRANSPORT); [exact I |].
  match goal with |- low (snd (if ?c then _ else _)) => destruct c; [apply low_err; reflexivity |] end.
  destruct (part_offset ih ip <? 0); [apply low_err; reflexivity |].
  destruct (part_offset oh op <? 0); [apply low_err; reflexivity |].
  match goal with |- low (snd (if ?c then _ else _)) => destruct c end.
  - destruct origin as [q |]; [| apply low_err; reflexivity].
    match goal with |- low (snd (match ?x with _ => _ end)) => assert (S : low (snd x)) by auto with low; destruct x as [o1 [n | e | |]] eqn:X; [clear S | exact S | exact I | exact I] end.
    apply transport_bsdiff_pos in X. replace (n <? 0) with false by lia. exact I.
  - match goal with |- low (snd (if ?c then _ else _)) => destruct c; [exact I | apply low_err; reflexivity] end.
Qed.
#[export] Hint Resolve low_transport_encode_part : low.
Lemma low_check_same_uuid : forall x0 x1, low (check_same_uuid x0 x1).
Proof. intros. unfold check_same_uuid. lows. Qed.
#[export] Hint Resolve low_check_same_uuid : low.
Lemma low_encode_loop : forall x0 x1 x2 x3 x4 x5 x6 x7, low (snd (encode_loop x0 x1 x2 x3 x4 x5 x6 x7)).
Proof. intros x0 x1 x2 x3 x4 x5 x6 x7. intros. gens x5. induction x5; intros; cbn [encode_loop]; lows. Qed.
#[export] Hint Resolve low_encode_loop : low.
Lemma low_transport_encode : forall x0 x1 x2 x3 x4 x5, low (snd (transport_encode x0 x1 x2 x3 x4 x5)).
Proof. intros. unfold transport_encode. lows. Qed.
#[export] Hint Resolve low_transport_encode : low.
Lemma low_set_origin : forall x0 x1, low (set_origin x0 x1).
Proof. intros. unfold set_origin. lows. Qed.
#[export] Hint Resolve low_set_origin : low.
Lemma low_file_io : low_io file_io.
Proof. split; intros; cbn [file_io io_wr io_rd]; [lows |]. apply low_file_rd. Qed.
#[export] Hint Resolve low_file_io : low.
Lemma low_generate_loop : forall sha fuel c f pos left, low (generate_loop sha fuel c f pos left).
Proof. intros sha fuel. induction fuel; intros; cbn [generate_loop]; lows. Qed.
#[export] Hint Resolve low_generate_loop : low.
(* the length a tree is said to have *)
Lemma next_level_pos : forall n, 0 <= n -> 0 <= next_level n.
Proof.
  intros n H. unfold next_level. cbv zeta. pose proof (proj2 (Z.shiftr_nonneg n 12) H) as A.
  assert (B : forall x, 0 <= Z.land x (MBLOCK - 1)) by (intros x; apply Z.land_nonneg; right; unfold MBLOCK; lia).
  apply Z.add_nonneg_nonneg; [apply Z.mul_nonneg_nonneg; [exact A | lia] | apply B].
Qed.
Lemma level_loop_pos : forall fuel level len lens total lens1 total1 r,
  0 <= len -> 0 <= total -> level_loop fuel level len lens total = (lens1, total1, r) -> 0 <= total1.
Proof.
  induction fuel as [| k IH]; intros level len lens total lens1 total1 r A B E; cbn [level_loop] in E; [congruence |].
  cbv zeta in E. pose proof (next_level_pos len A) as N.
  destruct (MAX_LEVELS <=? level + 1); [assert (total1 = total + next_level len) by congruence; lia |].
  destruct (next_level len =? MBLOCK); [assert (total1 = total + next_level len) by congruence; lia |].
  eapply IH; [exact N | | exact E]. lia.
Qed.
Lemma merkle_init_pos : forall S (d : io S) s n salt off zero c r, 0 <= n -> merkle_init d s n salt off zero = (c, r) -> 0 <= mk_tree_length c.
Proof.
  intros S d s n salt off zero c r H E. unfold merkle_init in E. cbv zeta in E.
  destruct (negb (n mod MBLOCK =? 0)); [injection E as <- _; cbn; lia |]. destruct (32 <? zlen salt); [injection E as <- _; cbn; lia |].
  destruct (level_loop 5 0 n (repeat 0 4) 0) as [[lens total] x] eqn:L. apply level_loop_pos in L; [| exact H | lia].
  destruct x; injection E as <- _; cbn; lia.
Qed.
Lemma write_loop_tree : forall S sha (d : io S) fuel c s data c1 s1, write_loop sha d fuel c s data = Ok (c1, s1) -> mk_tree_length c1 = mk_tree_length c.
Proof.
  intros S sha d. induction fuel as [| k IH]; intros c s data c1 s1 E; cbn [write_loop] in E.
  - destruct (zlen data =? 0); [congruence | discriminate].
  - destruct (zlen data =? 0); [congruence |]. cbv zeta in E.
    match type of E with (if ?b then _ else _) = _ => destruct b end; [| apply IH in E; exact E].
    match type of E with bind ?x _ = _ => destruct x as [s2 | | |]; cbn [bind] in E; try discriminate end.
    match type of E with (if ?b then _ else _) = _ => destruct b end; [| apply IH in E; exact E].
    assert (X : forall (a b : mctx * S), Ok a = Ok b -> a = b) by congruence. apply X in E.
    match type of E with (?a, _) = _ => assert (Y : a = c1) by congruence end. rewrite <- Y. reflexivity.
Qed.
Lemma generate_loop_tree : forall sha fuel c f pos left c1 f1, generate_loop sha fuel c f pos left = Ok (c1, f1) -> mk_tree_length c1 = mk_tree_length c.
Proof.
  intros sha. induction fuel as [| k IH]; intros c f pos left c1 f1 E; cbn [generate_loop] in E.
  - destruct (left =? 0); [congruence | discriminate].
  - destruct (left =? 0); [congruence |]. cbv zeta in E. destruct (file_rd f pos (Z.min left CHUNK)); try discriminate.
    match type of E with bind ?x _ = _ => destruct x as [[c2 f2] | | |] eqn:W; cbn [bind] in E; try discriminate end.
    apply IH in E. cbn [fst] in E. rewrite E. unfold merkle_write_chunk in W. apply write_loop_tree in W. exact W.
Qed.
Definition nnp (p : parth) : Prop := 0 <= p_transport_size p.
Lemma part_size_pos : forall p, nnp p -> 0 <= part_size p.
Proof. intros p H. unfold part_size. destruct (has_flag p FLAG_TRANSPORT); [exact H |]. unfold u64. pose proof (Z.mod_pos_bound (p_size p + p_pad_bytes p) 18446744073709551616). lia. Qed.
Lemma merkle_generate_pos : forall sha h p f f1 n, Forall nnp (h_parts h) -> merkle_generate sha h p f = Ok (f1, n) -> 0 <= n.
Proof.
  intros sha h p f f1 n F E. unfold merkle_generate in E. cbv zeta in E. destruct (hash_tree_id_to_part_id h (p_id p) =? 0); [discriminate |].
  destruct (get_meta h ID_MERKLE_SALT (hash_tree_id_to_part_id h (p_id p))) as [m | | |]; cbn [bind] in E; try discriminate.
  destruct (get_part h (hash_tree_id_to_part_id h (p_id p))) as [i | | |]; cbn [bind] in E; try discriminate.
  destruct (meta_read h m 0 32) as [salt | | |]; cbn [bind] in E; try discriminate.
  destruct (nth_error (h_parts h) i) as [q |] eqn:N; [| discriminate].
  assert (Q : nnp q) by (rewrite Forall_forall in F; apply F; eapply nth_error_In; exact N).
  destruct (merkle_init file_io f (part_size q) salt (data_pos h p) true) as [c r] eqn:I. apply merkle_init_pos in I; [| apply part_size_pos; exact Q].
  destruct r as [f2 | | |]; cbn [bind] in E; try discriminate.
  destruct (generate_loop sha (Z.to_nat (part_size q / CHUNK + 1)) c f2 (data_pos h q) (part_size q)) as [[c2 f3] | | |] eqn:G; cbn [bind] in E; try discriminate.
  apply generate_loop_tree in G.
  destruct (merkle_finish sha file_io (fst (c2, f3)) (snd (c2, f3))) as [[y z] | | |]; cbn [bind] in E; try discriminate.
  assert (X : forall (a b : bytes * Z), Ok a = Ok b -> a = b) by congruence. apply X in E. cbn [fst snd] in E. unfold merkle_get_size in E.
  assert (n = mk_tree_length c2) by congruence. lia.
Qed.
Lemma low_merkle_generate : forall sha h p f, low (merkle_generate sha h p f).
Proof. intros. unfold merkle_generate. lows. Qed.
#[export] Hint Resolve low_merkle_generate : low.
Lemma low_decoder_id : forall x0 x1, low (decoder_id x0 x1).
Proof. intros. unfold decoder_id. lows. Qed.
#[export] Hint Resolve low_decoder_id : low.
Lemma low_decode_start : forall x0 x1 x2 x3, low (decode_start x0 x1 x2 x3).
Proof. intros. unfold decode_start. lows. Qed.
#[export] Hint Resolve low_decode_start : low.
Lemma low_decode_chunk : forall x0 x1 x2 x3 x4 x5 x6, low (snd (decode_chunk x0 x1 x2 x3 x4 x5 x6)).
Proof. intros. unfold decode_chunk. lows. Qed.
#[export] Hint Resolve low_decode_chunk : low.
(* the number of bytes a patch decoder has written *)
Definition exok (c : bsctx) : Prop := 0 <= bs_wpos c /\ (bs_state c = BExtra -> 0 <= bs_extra c).
Lemma exok_next : forall c c2, 0 <= bs_wpos c -> bs_next c = Ok c2 -> exok c2.
Proof. intros c c2 H E. unfold bs_next in E. cbv zeta in E. destruct (in_i64 (bs_opos c + bs_adj c)); [| discriminate]. assert (X : forall a b : bsctx, Ok a = Ok b -> a = b) by congruence. apply X in E. rewrite <- E. split; [exact H | discriminate]. Qed.
Lemma exok_loop : forall o ooff woff blen fuel c f pp, exok c -> exok (fst (fst (bs_loop o ooff woff blen fuel c f pp))).
Proof.
  intros o ooff woff blen. induction fuel as [| k IH]; intros c f pp [P X]; cbn [bs_loop]; [split; assumption |].
  destruct (bs_state c) eqn:S.
  - destruct (zlen (bs_ctrl c) <? 24); [| split; [exact P | intros Q; change (bs_state c = BExtra) in Q; congruence]]. cbv zeta.
    match goal with |- context [if ?b then _ else _] => destruct b end; [| split; [exact P | discriminate]].
    apply IH. split; [exact P | discriminate].
  - cbv zeta. destruct (zlen pp >? 0); [apply IH |]; split; try exact P; discriminate.
  - cbv zeta. assert (XC : exok c) by (split; [exact P | intros Q; change (bs_state c = BExtra) in Q; congruence]).
    destruct (Z.ltb_spec (Z.min (Z.min (zlen pp) (bs_diff c)) blen) 0) as [N | N]; [exact XC |].
    destruct (negb (in_i64 (ooff + bs_opos c))); [exact XC |].
    destruct (read_origin o (ooff + bs_opos c) (Z.min (Z.min (zlen pp) (bs_diff c)) blen)) as [b | e | |]; try exact XC.
    2: split; [exact P | discriminate].
    destruct (zlen b =? Z.min (Z.min (zlen pp) (bs_diff c)) blen); [| split; [exact P | discriminate]].
    set (n := Z.min (Z.min (zlen pp) (bs_diff c)) blen) in *.
    set (c1 := mkBs BDiff (bs_ctrl c) (bs_diff c - n) (bs_extra c) (bs_adj c) (bs_opos c + n) (bs_wpos c + n)).
    assert (P1 : 0 <= bs_wpos c1) by (cbn; lia). assert (X1 : exok c1) by (split; [exact P1 | discriminate]).
    match goal with |- context [match ?x with Ok _ => _ | _ => _ end] => assert (R : forall c2, x = Ok c2 -> exok c2) end.
    { intros c2. destruct (bs_diff c1 =? 0).
      - destruct (Z.gtb_spec (bs_extra c1) 0) as [G | G]; [| apply exok_next; exact P1].
        intros E. assert (Y : forall a b : bsctx, Ok a = Ok b -> a = b) by congruence. apply Y in E. rewrite <- E. split; [exact P1 |]. intros _. cbn in G |- *. lia.
      - intros E. assert (Y : forall a b : bsctx, Ok a = Ok b -> a = b) by congruence. apply Y in E. rewrite <- E. exact X1. }
    match goal with |- context [match ?x with Ok _ => _ | _ => _ end] => destruct x as [c2 | e | |] end; try exact X1.
    specialize (R c2 eq_refl). destruct (zlen (zdrop n pp) >? 0); [apply IH; exact R | exact R].
  - cbv zeta. specialize (X eq_refl). pose proof (Zle_0_nat (length pp)) as L. change (0 <= zlen pp) in L.
    set (n := Z.min (zlen pp) (bs_extra c)) in *.
    set (c1 := mkBs BExtra (bs_ctrl c) (bs_diff c) (bs_extra c - n) (bs_adj c) (bs_opos c) (bs_wpos c + n)).
    assert (P1 : 0 <= bs_wpos c1) by (cbn; lia). assert (X1 : exok c1) by (split; [exact P1 | intros _; cbn; lia]).
    destruct (bs_extra c1 =? 0); [| exact X1].
    destruct (bs_next c1) as [c2 | e | |] eqn:N; try exact X1.
    apply exok_next in N; [| exact P1]. destruct (zlen (zdrop n pp) >? 0); [apply IH; exact N | exact N].
  - split; [exact P | intros Q; change (bs_state c = BExtra) in Q; congruence].
Qed.
Lemma exok_write : forall o ooff woff blen c f pp, exok c -> exok (fst (fst (bspatch_write o ooff woff blen c f pp))).
Proof. intros. unfold bspatch_write. apply exok_loop. assumption. Qed.
Lemma exok_hsp_poll : forall o ooff woff blen ilen fuel h f, exok (hp_bs h) -> exok (hp_bs (fst (fst (hsp_poll o ooff woff blen ilen fuel h f)))).
Proof.
  intros o ooff woff blen ilen. induction fuel as [| k IH]; intros h f X; cbn [hsp_poll]; [exact X |].
  destruct (d_poll blen (hp_d h)) as [[[d1 out] more] | e | |]; try exact X.
  pose proof (exok_write o ooff woff blen (hp_bs h) f out X) as W. destruct (bspatch_write o ooff woff blen (hp_bs h) f out) as [[c1 f1] r]. cbn [fst] in W.
  destruct r; try exact W. cbv zeta. match goal with |- context [if ?b then _ else _] => destruct b end; [apply IH; exact W | exact W].
Qed.
Lemma exok_hsp_loop : forall o ooff woff blen ilen fuel h f b, exok (hp_bs h) -> exok (hp_bs (fst (fst (hsp_loop o ooff woff blen ilen fuel h f b)))).
Proof.
  intros o ooff woff blen ilen. induction fuel as [| k IH]; intros h f b X; cbn [hsp_loop]; [exact X |].
  destruct (d_sink (hp_d h) b) as [d1 n].
  pose proof (exok_hsp_poll o ooff woff blen ilen (Z.to_nat 20000) (mkHp (hp_bs h) d1 (hp_ipos h + n)) f X) as W.
  destruct (hsp_poll o ooff woff blen ilen (Z.to_nat 20000) (mkHp (hp_bs h) d1 (hp_ipos h + n)) f) as [[h1 f1] r]. cbn [fst] in W.
  destruct r; try exact W. destruct (n <? zlen b); [apply IH; exact W | exact W].
Qed.
Lemma exok_hsp_write : forall o ooff woff blen ilen h f b, exok (hp_bs h) -> exok (hp_bs (fst (fst (hsp_write o ooff woff blen ilen h f b)))).
Proof. intros o ooff woff blen ilen h f b X. unfold hsp_write. destruct (hp_ipos h >=? ilen); [exact X | apply exok_hsp_loop; exact X]. Qed.
Lemma exok_lzp_loop : forall L o ooff woff blen fuel fin h f b, exok (lp_bs L h) -> exok (lp_bs L (fst (fst (lzp_loop L o ooff woff blen fuel fin h f b)))).
Proof.
  intros L o ooff woff blen. induction fuel as [| k IH]; intros fin h f b X; cbn [lzp_loop].
  - destruct ((zlen b >? 0) || fin); exact X.
  - destruct ((zlen b >? 0) || fin); [| exact X]. destruct (lz_code L (lp_s L h) b 8192 fin) as [[[s1 n] out] r].
    assert (W : exok (fst (fst (if zlen out >? 0 then bspatch_write o ooff woff blen (lp_bs L h) f out else (lp_bs L h, f, Ok tt))))) by (destruct (zlen out >? 0); [apply exok_write; exact X | exact X]).
    destruct (if zlen out >? 0 then bspatch_write o ooff woff blen (lp_bs L h) f out else (lp_bs L h, f, Ok tt)) as [[c1 f1] e]. cbn [fst] in W.
    destruct e; try exact W. destruct r; [apply IH; exact W | exact W | exact W].
Qed.
Lemma exok_lzp_write : forall L o ooff woff blen h f b, exok (lp_bs L h) -> exok (lp_bs L (fst (fst (lzp_write L o ooff woff blen h f b)))).
Proof. intros. unfold lzp_write. cbv zeta. apply exok_lzp_loop. assumption. Qed.
Lemma lzp_final_pos : forall L o ooff woff blen h f h1 f1 n, exok (lp_bs L h) -> lzp_final L o ooff woff blen h f = (h1, f1, Ok n) -> 0 <= n.
Proof.
  intros L o ooff woff blen h f h1 f1 n X E. unfold lzp_final in E. pose proof (exok_lzp_write L o ooff woff blen h f [] X) as W.
  destruct (lzp_write L o ooff woff blen h f []) as [[h2 f2] r]. cbn [fst] in W.
  destruct (bs_state (lp_bs L h)); try discriminate; destruct r; try discriminate; assert (Y : forall a b : Z, Ok a = Ok b -> a = b) by congruence;
    assert (n = bs_wpos (lp_bs L h2)) by congruence; destruct W as [W _]; lia.
Qed.
Definition dok (n : Z) {bld} (d : decoder bld) : Prop :=
  match d with DCopy _ => 0 <= n < 2^63 | DPlain _ _ c => exok c | DHs _ _ _ c => exok (hp_bs c) | DLz _ _ c => exok (lp_bs _ c) | DMerkle => True end.
Lemma low_decode_finish : forall bld sha h i p qf (d : decoder bld) f, dok (part_size p) d -> Forall nnp (h_parts h) -> low (snd (decode_finish bld sha h i p qf d f)).
Proof.
  intros bld sha h i p qf d f D F. unfold decode_finish. cbv zeta.
  match goal with |- low (snd (match ?x with _ => _ end)) => assert (S : low (snd x) /\ forall f1 n, x = (f1, Ok n) -> 0 <= n) end.
  { destruct d; cbn [dok] in D.
    - split; [exact I |]. intros f1 n E. assert (n = s64 (part_size p)) by congruence. unfold s64 in *. rewrite Z.mod_small in * by lia. lia.
    - split; [cbn [snd]; auto with low |]. intros f1 n E. assert (B : bspatch_final c = Ok n) by congruence. unfold bspatch_final in B. destruct D as [D _].
      destruct (bs_state c); try discriminate; assert (n = bs_wpos c) by congruence; lia.
    - split; [cbn [snd]; auto with low |]. intros f1 n E. assert (B : bspatch_final (hp_bs c) = Ok n) by congruence. unfold bspatch_final in B. destruct D as [D _].
      destruct (bs_state (hp_bs c)); try discriminate; assert (n = bs_wpos (hp_bs c)) by congruence; lia.
    - destruct (woff <? 0); [split; [apply low_err; reflexivity |]; intros f1 n E; discriminate |].
      pose proof (low_lzp_final (lz_dec (b_lib bld)) qf ooff woff PATCH_BUF c f) as LW.
      destruct (lzp_final (lz_dec (b_lib bld)) qf ooff woff PATCH_BUF c f) as [[h1 f1] r] eqn:E. split; [exact LW |].
      intros f2 n Y. assert (R : r = Ok n) by congruence. rewrite R in E. eapply lzp_final_pos; [exact D | exact E].
    - pose proof (low_merkle_generate sha h p f) as LW. destruct (merkle_generate sha h p f) as [[f1 n] | e | |] eqn:E.
      + split; [exact I |]. intros f2 m Y. assert (m = n) by congruence. apply merkle_generate_pos in E; [lia | exact F].
      + split; [exact LW | intros; discriminate].
      + split; [exact I | intros; discriminate].
      + split; [exact I | intros; discriminate]. }
  match goal with |- low (snd (match ?x with _ => _ end)) => destruct x as [f1 [n | e | |]]; destruct S as [S1 S2] end; try exact S1; try exact I.
  specialize (S2 f1 n eq_refl). replace (n <? 0) with false by lia.
  match goal with |- context [if ?b then _ else _] => destruct b end; [apply low_err; reflexivity | exact I].
Qed.
#[export] Hint Resolve low_decode_finish : low.
Lemma low_decode_chunks : forall x0 x1 x2 x3 x4 x5 x6 x7 x8 x9, low (snd (decode_chunks x0 x1 x2 x3 x4 x5 x6 x7 x8 x9)).
Proof. intros x0 x1 x2 x3 x4 x5 x6 x7 x8 x9. intros. gens x1. induction x1; intros; cbn [decode_chunks]; lows. Qed.
#[export] Hint Resolve low_decode_chunks : low.
Lemma decode_chunk_ok : forall bld h p qf (d : decoder bld) f b, match d with DCopy _ => True | _ => dok 0 d end ->
  match fst (fst (decode_chunk bld h p qf d f b)) with DCopy _ => True | _ => dok 0 (fst (fst (decode_chunk bld h p qf d f b))) end.
Proof.
  intros bld h p qf d f b D. unfold decode_chunk. destruct d; cbn [dok] in D.
  - cbv zeta. destruct (s64 (data_pos h p + off) <? 0); exact I.
  - destruct (woff <? 0); [exact D |]. pose proof (exok_write qf ooff woff PATCH_BUF c f b D) as W. destruct (bspatch_write qf ooff woff PATCH_BUF c f b) as [[c1 f1] r]. exact W.
  - destruct (woff <? 0); [exact D |]. pose proof (exok_hsp_write qf ooff woff PATCH_BUF ilen c f b D) as W. destruct (hsp_write qf ooff woff PATCH_BUF ilen c f b) as [[c1 f1] r]. exact W.
  - destruct (woff <? 0); [exact D |]. pose proof (exok_lzp_write (lz_dec (b_lib bld)) qf ooff woff PATCH_BUF c f b D) as W. destruct (lzp_write (lz_dec (b_lib bld)) qf ooff woff PATCH_BUF c f b) as [[c1 f1] r]. exact W.
  - exact I.
Qed.
Lemma decode_chunks_ok : forall bld h p qf inp fuel pos left (d : decoder bld) f d1 f1 pos1,
  match d with DCopy _ => True | _ => dok 0 d end -> 0 <= pos -> 0 <= left -> zlen inp < 2^63 ->
  decode_chunks bld fuel h p qf inp pos left d f = (d1, f1, pos1, Ok tt) ->
  match d1 with DCopy _ => True | _ => dok 0 d1 end /\ pos <= pos1 /\ (left = 0 \/ pos + left <= zlen inp).
Proof.
  intros bld h p qf inp. induction fuel as [| k IH]; intros pos left d f d1 f1 pos1 D P L Z63 E; cbn [decode_chunks] in E.
  - destruct (Z.eqb_spec left 0); [| discriminate]. assert (d1 = d) by congruence. assert (pos1 = pos) by congruence. subst d1 pos1. split; [exact D | lia].
  - destruct (Z.eqb_spec left 0); [assert (d1 = d) by congruence; assert (pos1 = pos) by congruence; subst d1 pos1; split; [exact D | lia] |].
    cbv zeta in E. destruct (Z.eqb_spec (zlen (fread_at inp pos (Z.min left CHUNK))) (Z.min left CHUNK)) as [R | R]; [| discriminate].
    pose proof (decode_chunk_ok bld h p qf d f (fread_at inp pos (Z.min left CHUNK)) D) as W.
    destruct (decode_chunk bld h p qf d f (fread_at inp pos (Z.min left CHUNK))) as [[d2 f2] r]. cbn [fst] in W.
    destruct r as [[] | e | |]; try discriminate. unfold CHUNK in *.
    assert (pos + Z.min left 4096 <= zlen inp).
    { unfold fread_at in R. revert R. clear -n L P. unfold slice, ztake, zdrop, zlen. rewrite ?firstn_length, ?skipn_length. intros R. lia. }
    apply IH in E; [| exact W | lia | lia | exact Z63]. destruct E as (A & B & C). split; [exact A |]. split; [lia |]. right. lia.
Qed.
Definition nn (h : header) : Prop := Forall nnp (h_parts h).
Lemma low_decode_part : forall bld sha origin inp h i p pos f, nnp p -> nn h -> 0 <= pos -> zlen inp < 2^63 ->
  low (snd (decode_part bld sha origin inp h i p pos f)) /\ (snd (decode_part bld sha origin inp h i p pos f) = Ok tt ->
    nn (fst (fst (fst (decode_part bld sha origin inp h i p pos f)))) /\ 0 <= snd (fst (decode_part bld sha origin inp h i p pos f))).
Proof.
  intros bld sha origin inp h i p pos f N H P Z63. unfold decode_part.
  match goal with |- low (snd (match ?x with _ => _ end)) /\ _ => assert (S : low x) by lows; destruct x as [u | e | |] end.
  2: split; [exact S | discriminate]. 2-3: split; [exact I | discriminate].
  cbv zeta. clear S. pose proof (low_decode_start bld h p origin) as S.
  destruct (decode_start bld h p origin) as [d | e | |] eqn:D. 2: split; [exact S | discriminate]. 2-3: split; [exact I | discriminate].
  set (qf := match origin with Some q => pk_file q | None => [] end).
  pose proof (low_decode_chunks bld (Z.to_nat (part_size p / CHUNK + 1)) h p qf inp pos (part_size p) d (put_header f h)) as W.
  destruct (decode_chunks bld (Z.to_nat (part_size p / CHUNK + 1)) h p qf inp pos (part_size p) d (put_header f h)) as [[[d1 f1] pos1] r] eqn:C.
  cbn [snd] in W. destruct r as [[] | e | |]. 2: split; [exact W | discriminate]. 2-3: split; [exact I | discriminate].
  assert (D0 : match d with DCopy _ => True | _ => dok 0 d end).
  { unfold decode_start in D. destruct (decoder_id h p) as [id | | |]; cbn [bind] in D; try discriminate.
    assert (X : forall a b : decoder bld, Ok a = Ok b -> a = b) by congruence. assert (E0 : exok bs_init) by (split; [cbn; lia | discriminate]).
    repeat match type of D with
    | (if ?b then _ else _) = _ => destruct b
    | match ?q with Some _ => _ | None => _ end = _ => destruct q
    end; try discriminate; apply X in D; rewrite <- D; cbn [dok]; first [exact I | exact E0]. }
  pose proof (part_size_pos p N) as PS.
  apply decode_chunks_ok in C; [| exact D0 | exact P | exact PS | exact Z63]. destruct C as (A & B & C).
  assert (DK : dok (part_size p) d1) by (destruct d1; cbn [dok] in A |- *; try exact A; lia).
  pose proof (low_decode_finish bld sha h i p qf d1 f1 DK H) as LF.
  destruct (decode_finish bld sha h i p qf d1 f1) as [[h1 f2] r] eqn:F. cbn [fst snd] in LF |- *. split; [exact LF |].
  intros R. split; [| lia]. rewrite R in F. clear -F H. unfold decode_finish in F. cbv zeta in F.
  match type of F with match ?x with _ => _ end = _ => destruct x as [f3 [n | | |]]; try discriminate end.
  destruct (n <? 0); [discriminate |]. match type of F with (if ?b then _ else _) = _ => destruct b; [discriminate |] end.
  match type of F with (?a, _, _) = _ => assert (E : h1 = a) by congruence; rewrite E end.
  unfold nn, set_part, with_parts. cbn [h_parts]. clear -H. revert i. unfold nn in H. induction H as [| x l X L IH]; intros [| i]; cbn [list_upd]; try constructor; auto. unfold nnp. cbn. lia.
Qed.
#[export] Hint Resolve low_decode_part : low.
Lemma low_decode_loop : forall bld sha origin inp n h i pos f, nn h -> 0 <= pos -> zlen inp < 2^63 -> low (snd (decode_loop bld sha origin inp n h i pos f)).
Proof.
  intros bld sha origin inp. induction n as [| k IH]; intros h i pos f N P Z63; cbn [decode_loop]; [exact I |].
  destruct (nth_error (h_parts h) i) as [p |] eqn:E; [| exact I].
  assert (Q : nnp p) by (unfold nn in N; rewrite Forall_forall in N; apply N; eapply nth_error_In; exact E).
  destruct (p_id p =? 0); [exact I |]. destruct (low_decode_part bld sha origin inp h i p pos f Q N P Z63) as [A B].
  destruct (decode_part bld sha origin inp h i p pos f) as [[[h1 f1] pos1] r]. cbn [fst snd] in A, B.
  destruct r as [[] | e | |]; [| exact A | exact I | exact I]. destruct (B eq_refl) as [B1 B2]. apply IH; assumption.
Qed.
#[export] Hint Resolve low_decode_loop : low.
Definition opened (p : pkg) : Prop := nn (pk_header p) /\ zlen (pk_file p) < 2^63.
Lemma low_transport_decode : forall bld sha p f origin, opened p -> low (snd (transport_decode bld sha p f origin)).
Proof.
  intros bld sha p f origin [A B]. unfold transport_decode.
  match goal with |- low (snd (match ?x with _ => _ end)) => assert (S : low x) by lows; destruct x as [u | e | |] end; [| exact S | exact I | exact I].
  apply low_decode_loop; [exact A | unfold HDR_SIZE; lia | exact B].
Qed.
#[export] Hint Resolve low_transport_decode : low.
Lemma low_open_rw : forall x0 x1 x2, low (snd (open_rw x0 x1 x2)).
Proof. intros. unfold open_rw. lows. Qed.
#[export] Hint Resolve low_open_rw : low.
Lemma low_open_new : forall x0 x1 x2, low (snd (open_new x0 x1 x2)).
Proof. intros. unfold open_new. lows. Qed.
#[export] Hint Resolve low_open_new : low.
Lemma low_t_open : forall x0 x1 x2 x3, low (snd (t_open x0 x1 x2 x3)).
Proof. intros. unfold t_open. lows. Qed.
(* what opening a package gives *)
Definition readable (fs : fsys) : Prop := forall w (f : bytes), fs w = Some f -> bytes_ok f /\ zlen f < 2^63.
Lemma opened_pkg : forall sha f f' p, good_hash sha -> bytes_ok f -> zlen f < 2^63 -> pkg_open sha true f = (f', Ok p) -> opened p.
Proof.
  intros sha f f' p G O L E. unfold pkg_open in E. cbv zeta in E. assert (X : forall a b : pkg, Ok a = Ok b -> a = b) by congruence.
  destruct (Z.eqb_spec (zlen (fread_at f 0 HDR_SIZE)) HDR_SIZE) as [R | R].
  - destruct (valid_header (dec_header (fread_at f 0 HDR_SIZE))); cbn [bind] in E; try discriminate.
    assert (Y : p = mkPkg (dec_header (fread_at f 0 HDR_SIZE)) f) by congruence. rewrite Y. split; [| exact L]. unfold nn. cbn [pk_header].
    pose proof (wf_dec_header (fread_at f 0 HDR_SIZE) R) as W.
    assert (B : bytes_ok (fread_at f 0 HDR_SIZE)). { unfold fread_at, bytes_ok in *. apply bytes_ok_slice. exact O. }
    apply W in B. eapply Forall_impl; [| exact (proj2 (wf_parts _ B))]. intros a0 Ha. unfold nnp. destruct Ha as (? & ? & ? & ? & ?). tauto.
  - assert (L2 : zlen f < 4096). { revert R. clear. unfold fread_at, HDR_SIZE. unfold slice, ztake, zdrop, zlen. rewrite ?firstn_length, ?skipn_length. intros R. lia. }
    rewrite (update_hash_init sha f G) in E. cbn [negb] in E.
    match type of E with (_, bind ?x _) = _ => destruct x; cbn [bind] in E; try discriminate end.
    match type of E with (_, Ok ?x) = _ => assert (Y : p = x) by congruence end. rewrite Y. pose proof (fresh_wf sha G) as W. split.
    + unfold nn. cbn [pk_header]. eapply Forall_impl; [| exact (proj2 (wf_parts _ W))]. intros a0 Ha. unfold nnp. destruct Ha as (? & ? & ? & ? & ?). tauto.
    + cbn [pk_file pk_header]. rewrite fwrite_at_end by reflexivity. rewrite zlen_app, (zlen_enc_header _ W). lia.
Qed.
Lemma opened_input : forall sha fs input origin fs1 p q, good_hash sha -> readable fs -> t_open sha fs input origin = (fs1, Ok (p, q)) -> opened p.
Proof.
  intros sha fs input origin fs1 p q G R E. unfold t_open in E. destruct (open_rw sha fs input) as [fs2 [p2 | | |]] eqn:O; try discriminate.
  assert (Y : p = p2). { destruct origin; [destruct (open_rw sha fs2 b) as [fs3 [q2 | | |]]; try discriminate |]; congruence. }
  rewrite Y. unfold open_rw in O. destruct (fs input) as [f |] eqn:F; [| discriminate]. destruct (R _ _ F) as [R1 R2].
  destruct (pkg_open sha true f) as [f' r] eqn:PO. assert (Z1 : r = Ok p2) by congruence. rewrite Z1 in PO. eapply opened_pkg; [exact G | exact R1 | exact R2 | exact PO].
Qed.
#[export] Hint Resolve low_t_open : low.
Lemma low_t_run : forall bld sha sais ga v p q o, opened p -> low (snd (t_run bld sha sais ga v p q o)).
Proof.
  intros bld sha sais ga v p q o H. unfold t_run. destruct v; [lows |]. destruct q as [q |]; [| lows].
  pose proof (low_transport_decode bld sha p (pk_file o) (Some q) H) as L. destruct (transport_decode bld sha p (pk_file o) (Some q)) as [[h f] r]. exact L.
Qed.
#[export] Hint Resolve low_t_run : low.
Lemma low_cli_transport : forall bld sha sais ga fs v input origin output r, good_hash sha -> readable fs ->
  snd (cli_transport bld sha sais ga fs v input origin output) = Some r -> low r.
Proof.
  intros bld sha sais ga fs v input origin output r G R. unfold cli_transport. pose proof (low_t_open sha fs input origin) as L.
  destruct (t_open sha fs input origin) as [fs1 [[p q] | e | |]] eqn:T. 2-4: cbn [snd] in L |- *; intros E; assert (Y : forall a b : res unit, Some a = Some b -> a = b) by congruence; apply Y in E; rewrite <- E; exact L.
  apply opened_input in T; [| exact G | exact R]. destruct output as [out |]. 2: { cbn [snd]. intros E. assert (Y : r = Err (-1)) by congruence. rewrite Y. apply low_err. reflexivity. }
  pose proof (low_open_new sha fs1 out) as LN. destruct (open_new sha fs1 out) as [fs2 [o | e | |]].
  2-4: cbn [snd] in LN |- *; intros E; assert (Y : forall a b : res unit, Some a = Some b -> a = b) by congruence; apply Y in E; rewrite <- E; exact LN.
  match goal with |- context [if ?b then _ else _] => destruct b end; [discriminate |].
  pose proof (low_t_run bld sha sais ga v p q o T) as LR. destruct (t_run bld sha sais ga v p q o) as [f x]. cbn [snd] in LR |- *. intros E. assert (Y : r = x) by congruence. rewrite Y. exact LR.
Qed.
#[export] Hint Resolve low_cli_transport : low.
