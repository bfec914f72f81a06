(* TransportTotal.v -- decoding a transport package always terminates *)
From Coq Require Import Lia.
From Verif Require Import Base BaseLemmas HeaderModel HeaderSpec CodecProofs CrcModel HashModel VerifyModel PkgSpec PkgProofs MerkleModel MerkleSpec MerkleSizes MerkleChunks
  BspatchModel BspatchProofs BspatchSafe HsPatchModel HsPatchDec HsPatchFinal LzModel LzSpec LzFinal TransportModel TransportRefuse.
Local Open Scope Z_scope.
Local Open Scope list_scope.

Section T.
Variable bld : build.

Section Gen.
Variables (St : Type) (W : St -> bytes -> bytes -> St * bytes * res unit) (inj : St -> decoder bld) (h : header) (p : parth) (qf inp : bytes).
Hypothesis HW : forall s f b, decode_chunk bld h p qf (inj s) f b = let '(s1, f1, r) := W s f b in (inj s1, f1, r).
Fixpoint feed (s : St) (f : bytes) (l : list bytes) : St * bytes * res unit :=
  match l with
  | [] => (s, f, Ok tt)
  | b :: t => match W s f b with
              | (s1, f1, Ok _) => feed s1 f1 t
              | x => x
              end
  end.
Lemma feed_gen : forall fuel pos left s f, 0 <= left -> (left + 4095) / 4096 <= Z.of_nat fuel ->
  exists (l : list bytes) s1 f1 pos1 r, decode_chunks bld fuel h p qf inp pos left (inj s) f = (inj s1, f1, pos1, r) /\
    Forall (fun b : bytes => b <> []) l /\ zlen (concat l) <= left /\
    exists r', feed s f l = (s1, f1, r') /\ (r = r' \/ (r' = Ok tt /\ r = Err E_READ_ERROR)).
Proof using All.
  induction fuel as [|k IH]; intros pos left s f Hl Hf.
  { assert (left = 0) as -> by lia. exists [], s, f, pos, (Ok tt). cbn. split; [reflexivity|]. split; [constructor|]. split; [lia|]. eauto. }
  cbn [decode_chunks]. destruct (Z.eqb_spec left 0) as [->|N].
  { exists [], s, f, pos, (Ok tt). split; [reflexivity|]. split; [constructor|]. split; [cbn; lia|]. cbn. eauto. }
  set (n := Z.min left CHUNK). assert (C : 0 < n <= left /\ (n = 4096 \/ n = left)) by (unfold n, CHUNK; lia). clearbody n.
  destruct (Z.eqb_spec (zlen (fread_at inp pos n)) n) as [E|E].
  - rewrite HW. destruct (W s f (fread_at inp pos n)) as [[s1 f1] r] eqn:EW.
    destruct r as [[]|x| |].
    + destruct (IH (pos + n) (left - n) s1 f1) as (l & s2 & f2 & pos2 & r2 & A & F & L & r' & B & R); [lia|lia|].
      exists (fread_at inp pos n :: l), s2, f2, pos2, r2. rewrite A. split; [reflexivity|]. split.
      { constructor; [|exact F]. intros Z0. rewrite Z0 in E. change (zlen (@nil Z)) with 0 in E. lia. }
      split. { cbn [concat]. rewrite zlen_app. lia. }
      exists r'. split; [|exact R]. cbn [feed]. rewrite EW. exact B.
    + exists [fread_at inp pos n], s1, f1, (pos + n), (Err x). split; [reflexivity|]. split.
      { constructor; [|constructor]. intros Z0. rewrite Z0 in E. change (zlen (@nil Z)) with 0 in E. lia. }
      split; [cbn [concat]; rewrite app_nil_r; lia|]. exists (Err x). split; [|auto]. cbn [feed]. rewrite EW. reflexivity.
    + exists [fread_at inp pos n], s1, f1, (pos + n), UB. split; [reflexivity|]. split.
      { constructor; [|constructor]. intros Z0. rewrite Z0 in E. change (zlen (@nil Z)) with 0 in E. lia. }
      split; [cbn [concat]; rewrite app_nil_r; lia|]. exists UB. split; [|auto]. cbn [feed]. rewrite EW. reflexivity.
    + exists [fread_at inp pos n], s1, f1, (pos + n), Stuck. split; [reflexivity|]. split.
      { constructor; [|constructor]. intros Z0. rewrite Z0 in E. change (zlen (@nil Z)) with 0 in E. lia. }
      split; [cbn [concat]; rewrite app_nil_r; lia|]. exists Stuck. split; [|auto]. cbn [feed]. rewrite EW. reflexivity.
  - exists [], s, f, pos, (Err E_READ_ERROR). split; [reflexivity|]. split; [constructor|]. split; [cbn; lia|]. exists (Ok tt). cbn. auto.
Qed.
End Gen.
Lemma feed_plain o ooff woff blen : forall l c f, feed bsctx (bspatch_write o ooff woff blen) c f l = bspatch_chunks o ooff woff blen c f l.
Proof. induction l as [|b l IH]; intros c f; [reflexivity|]. cbn [feed bspatch_chunks]. destruct (bspatch_write o ooff woff blen c f b) as [[c1 f1] [[]|x| |]]; try reflexivity. apply IH. Qed.
Lemma feed_hs o ooff woff blen ilen : forall l c f, feed hspctx (hsp_write o ooff woff blen ilen) c f l = hsp_chunks o ooff woff blen ilen c f l.
Proof. induction l as [|b l IH]; intros c f; [reflexivity|]. cbn [feed hsp_chunks]. destruct (hsp_write o ooff woff blen ilen c f b) as [[c1 f1] [[]|x| |]]; try reflexivity. apply IH. Qed.
Lemma feed_lz L o ooff woff blen : forall l c f, feed (lzpctx L) (lzp_write L o ooff woff blen) c f l = lzp_chunks L o ooff woff blen c f l.
Proof. induction l as [|b l IH]; intros c f; [reflexivity|]. cbn [feed lzp_chunks]. destruct (lzp_write L o ooff woff blen c f b) as [[c1 f1] [[]|x| |]]; try reflexivity. apply IH. Qed.

(* ---- tree generation ---- *)
Lemma write_loop_total {S} sha (d : io S) : (forall s o b, io_wr d s o b <> Stuck) -> forall fuel c s data, blk_ok c -> (length data <= fuel)%nat -> write_loop sha d fuel c s data <> Stuck.
Proof.
  intros HD. induction fuel as [|k IH]; intros c s data Hc Hl.
  { destruct data; [|cbn in Hl; lia]. cbn. discriminate. }
  destruct data as [|b data]; [cbn; discriminate|].
  rewrite write_loop_step by discriminate. cbv zeta. set (dt := b :: data) in *.
  assert (Hp : 0 < zlen dt) by (apply zlen_pos; discriminate). unfold blk_ok in Hc.
  destruct (Z.eqb_spec (mk_block_counter c - Z.min (mk_block_counter c) (zlen dt)) 0).
  - specialize (HD s (mk_offset c + (mk_chunk_counter c + nth 0 (mk_level_offset c) 0))).
    destruct (io_wr d s _ _) as [s1| | |] eqn:E; cbn [bind]; try discriminate; [|intros _; exact (HD _ E)].
    destruct (mk_input_length c =? MBLOCK); [discriminate|]. apply IH; [apply blk_ok_done|]. rewrite length_zdrop. lia.
  - apply IH; [unfold blk_ok in *; cbn [mk_progress mk_block_counter]; lia|]. rewrite length_zdrop. lia.
Qed.
Lemma file_wr_total s o b : io_wr file_io s o b <> Stuck.
Proof. cbn. destruct (o <? 0); discriminate. Qed.
Lemma file_rd_total f o n : file_rd f o n <> Stuck.
Proof. unfold file_rd. destruct (o <? 0); [discriminate|]. destruct (_ =? _); discriminate. Qed.
Lemma generate_total sha : forall fuel c f pos left, 0 <= left -> (left + 4095) / 4096 <= Z.of_nat fuel -> blk_ok c -> generate_loop sha fuel c f pos left <> Stuck.
Proof.
  induction fuel as [|k IH]; intros c f pos left Hl Hf Hc.
  { assert (left = 0) as -> by lia. cbn. discriminate. }
  cbn [generate_loop]. destruct (Z.eqb_spec left 0); [discriminate|].
  set (n0 := Z.min left CHUNK). assert (C : 0 < n0 <= left /\ (n0 = 4096 \/ n0 = left)) by (unfold n0, CHUNK; lia). clearbody n0.
  destruct (file_rd f pos n0) as [b| | |]; try discriminate. unfold merkle_write_chunk.
  pose proof (write_loop_total sha file_io file_wr_total (length b) c f b Hc ltac:(lia)) as T.
  destruct (write_loop sha file_io (length b) c f b) as [[c1 f1]| | |] eqn:E; cbn [bind]; try discriminate; [|contradiction].
  cbn [fst snd]. apply IH; [lia|lia|]. eapply write_loop_inv; eauto.
Qed.
Lemma read_pieces_total : forall k s pos acc, read_pieces file_io k s pos acc <> Stuck.
Proof.
  induction k as [|k IH]; intros s pos acc; [discriminate|]. cbn [read_pieces].
  pose proof (file_rd_total s pos MHASH) as T. change (io_rd file_io s pos MHASH) with (file_rd s pos MHASH).
  destruct (file_rd s pos MHASH); cbn [bind]; try discriminate; [|contradiction]. apply IH.
Qed.
Lemma finish_level_total sha salt : forall n s src dst, finish_level sha file_io n s salt src dst <> Stuck.
Proof.
  induction n as [|n IH]; intros s src dst; [discriminate|]. cbn [finish_level].
  pose proof (read_pieces_total 128 s src salt) as T. destruct (read_pieces file_io 128 s src salt) as [m| | |]; cbn [bind]; try discriminate; [|contradiction].
  pose proof (file_wr_total s dst (sha HASH_SHA256 m)) as T2. destruct (io_wr file_io s dst (sha HASH_SHA256 m)) as [s1| | |]; cbn [bind]; try discriminate; [|contradiction]. apply IH.
Qed.
Lemma finish_levels_total sha c : forall n i s, finish_levels sha file_io n i c s <> Stuck.
Proof.
  induction n as [|n IH]; intros i s; [discriminate|]. cbn [finish_levels].
  match goal with |- bind ?x _ <> Stuck => assert (T : x <> Stuck) by apply finish_level_total; destruct x end; cbn [bind]; try discriminate; [|contradiction]. apply IH.
Qed.
Lemma merkle_finish_total sha c s : merkle_finish sha file_io c s <> Stuck.
Proof.
  unfold merkle_finish. destruct (mk_finished c); [discriminate|].
  match goal with |- bind ?x _ <> Stuck => assert (T : x <> Stuck) by apply finish_levels_total; destruct x end; cbn [bind]; try discriminate; [|contradiction].
  destruct (mk_levels c =? 0); [discriminate|]. cbv zeta.
  match goal with |- bind ?x _ <> Stuck => assert (T2 : x <> Stuck) by apply read_pieces_total; destruct x end; cbn [bind]; try discriminate; contradiction.
Qed.
Lemma zero_fill_total : forall fuel s pos left, left mod 32 = 0 -> 0 <= left < 2^64 -> left / 32 <= Z.of_nat fuel -> zero_fill fuel file_io s pos left <> Stuck.
Proof.
  induction fuel as [|k IH]; intros s pos left H1 H2 H3.
  { assert (left = 0) as -> by lia. cbn. discriminate. }
  cbn [zero_fill]. destruct (Z.eqb_spec left 0); [discriminate|].
  pose proof (file_wr_total s pos (zeros MHASH)) as T. destruct (io_wr file_io s pos (zeros MHASH)) as [s1| | |]; cbn [bind]; try discriminate; [|contradiction].
  assert (32 <= left) by lia. assert (E : u64 (left - MHASH) = left - 32) by (unfold u64, MHASH; rewrite Z.mod_small by lia; reflexivity). rewrite E.
  apply IH; [|lia|]; lia.
Qed.
Lemma mod32 x : (4096 * x) mod 32 = 0.
Proof. replace (4096 * x) with (128 * x * 32) by lia. apply Z.mod_mul. lia. Qed.
Lemma merkle_init_total f n salt off c r : 0 <= n < 2^64 -> merkle_init file_io f n salt off true = (c, r) -> r <> Stuck /\ blk_ok c.
Proof.
  intros Hn E. assert (H : blk_ok c).
  { unfold merkle_init in E. destruct (negb _); [injection E as <- _; unfold blk_ok, MBLOCK; cbn [mk_block_counter]; lia|]. destruct (32 <? zlen salt); [injection E as <- _; unfold blk_ok, MBLOCK; cbn [mk_block_counter]; lia|].
    destruct (level_loop _ _ _ _ _) as [[lens total] r0]. destruct r0; injection E as <- _; unfold blk_ok, MBLOCK; cbn [mk_block_counter]; lia. }
  split; [|exact H].
  destruct (Z.eqb_spec (n mod 4096) 0) as [Ha|Ha].
  2: { unfold merkle_init, MBLOCK in E. destruct (Z.eqb_spec (n mod 4096) 0); [contradiction|]. cbn [negb] in E. injection E as _ <-. discriminate. }
  destruct (Z.ltb_spec 32 (zlen salt)) as [Hs|Hs].
  { unfold merkle_init, MBLOCK in E. rewrite Ha in E. cbn [Z.eqb negb] in E. destruct (Z.ltb_spec 32 (zlen salt)); [|lia]. injection E as _ <-. discriminate. }
  destruct (Z.eq_dec n 0) as [->|N].
  { unfold merkle_init, MBLOCK in E. change (0 mod 4096 =? 0) with true in E. cbn [negb] in E. destruct (Z.ltb_spec 32 (zlen salt)); [lia|].
    change (level_loop 5 0 0 (repeat 0 4) 0) with (repeat 0 4, 0, @Err Z E_NO_SPACE_LEFT) in E. injection E as _ <-. discriminate. }
  assert (K : 0 < n / 4096) by (pose proof (aligned_mult n ltac:(lia) Ha); lia).
  destruct (tree_blocks_exists (n / 4096) K) as [l Hl]. pose proof (tree_blocks_sum _ _ Hl) as B.
  destruct (Z_le_gt_dec (zlen l) 3) as [L|L].
  - destruct (init_accepts file_io f n salt off true l ltac:(lia) Ha Hs Hl L) as (c1 & E1 & _). rewrite E1 in E. apply (f_equal snd) in E. cbv beta iota delta [snd] in E. subst r.
    assert (H0 : 4096 * (n / 4096) = n) by (symmetry; apply aligned_mult; lia).
    assert (B2 : 0 <= 4096 * zsum l < 2^64).
    { revert B H0 Hn. clear. generalize (zsum l) (n / 4096). intros z q B E. rewrite <- E. intros. nia. }
    apply zero_fill_total; [|exact B2|].
    + apply (mod32 (zsum l)).
    + revert B2. clear. generalize (4096 * zsum l). intros z Hz. rewrite Z2Nat.id; lia.
  - destruct (init_rejects file_io f n salt off true l ltac:(lia) Ha Hs Hl ltac:(lia)) as (c1 & E1 & _). rewrite E1 in E. injection E as _ <-. discriminate.
Qed.
Lemma get_meta_total h a b : get_meta h a b <> Stuck.
Proof. unfold get_meta, get_meta_int. destruct (find_index _ _); discriminate. Qed.
Lemma get_part_total h a : get_part h a <> Stuck.
Proof. unfold get_part. destruct (find_index _ _); discriminate. Qed.
Lemma meta_read_total h i a b : meta_read h i a b <> Stuck.
Proof. unfold meta_read. destruct (nth_error _ _) as [m|]; [|discriminate]. destruct (_ >? _); discriminate. Qed.
Definition psz (p : parth) : Prop := 0 <= p_transport_size p < 2^64.
Lemma psz_size p : psz p -> 0 <= part_size p < 2^64.
Proof. unfold psz, part_size. destruct (has_flag p FLAG_TRANSPORT); [auto|]. intros _. unfold u64. apply Z.mod_pos_bound. lia. Qed.
Lemma merkle_generate_total sha h p f : Forall psz (h_parts h) -> merkle_generate sha h p f <> Stuck.
Proof.
  intros F. unfold merkle_generate. destruct (_ =? 0); [discriminate|].
  set (fs_id := hash_tree_id_to_part_id h (p_id p)). clearbody fs_id.
  pose proof (get_meta_total h ID_MERKLE_SALT fs_id) as T1. destruct (get_meta h ID_MERKLE_SALT fs_id) as [m| | |]; cbn [bind]; try discriminate; [|contradiction].
  pose proof (get_part_total h fs_id) as T2. destruct (get_part h fs_id) as [i| | |]; cbn [bind]; try discriminate; [|contradiction].
  pose proof (meta_read_total h m 0 32) as T3. destruct (meta_read h m 0 32) as [salt| | |]; cbn [bind]; try discriminate; [|contradiction].
  destruct (nth_error (h_parts h) i) as [fs|] eqn:Ei; [|discriminate].
  assert (P : psz fs) by (eapply Forall_forall; [exact F|eapply nth_error_In; exact Ei]). apply psz_size in P.
  destruct (merkle_init file_io f (part_size fs) salt (data_pos h p) true) as [c r] eqn:E. apply merkle_init_total in E as [E1 E2]; [|exact P].
  destruct r as [f1| | |]; cbn [bind]; try discriminate; [|contradiction].
  pose proof (generate_total sha (Z.to_nat (part_size fs / CHUNK + 1)) c f1 (data_pos h fs) (part_size fs) ltac:(lia)
    ltac:(unfold CHUNK; rewrite Z2Nat.id; lia) E2) as T4.
  destruct (generate_loop _ _ _ _ _ _) as [[c2 f2]| | |]; cbn [bind fst snd]; try discriminate; [|contradiction].
  pose proof (merkle_finish_total sha c2 f2) as T5. destruct (merkle_finish sha file_io c2 f2) as [y| | |]; cbn [bind]; try discriminate. contradiction.
Qed.
Definition orig_file (origin : option pkg) : bytes := match origin with Some q => pk_file q | None => [] end.
Lemma decoder_id_total h p : decoder_id h p <> Stuck.
Proof.
  unfold decoder_id. destruct (has_flag p FLAG_TRANSPORT); [|discriminate]. destruct (get_meta h ID_BPAK_TRANSPORT (p_id p)) as [m| | |]; try discriminate.
  pose proof (meta_read_total h m 4 4). destruct (meta_read h m 4 4); cbn [bind]; try discriminate. contradiction.
Qed.
Lemma decode_start_total h p origin : decode_start bld h p origin <> Stuck.
Proof.
  unfold decode_start. pose proof (decoder_id_total h p). destruct (decoder_id h p) as [id| | |]; cbn [bind]; try discriminate; [|contradiction].
  destruct (_ || _). - destruct origin; [|discriminate]. destruct (_ =? _); [discriminate|]. destruct (_ =? _); [discriminate|]. destruct (b_lzma bld); discriminate.
  - destruct (_ =? _); [discriminate|]. destruct (_ =? _); discriminate.
Qed.
Lemma decode_chunks_at_once h p qf inp d : (forall f b, exists e, decode_chunk bld h p qf d f b = (d, f, Err e)) -> forall fuel pos left f, 0 <= left -> (left + 4095) / 4096 <= Z.of_nat fuel ->
  exists f1 pos1 r, decode_chunks bld fuel h p qf inp pos left d f = (d, f1, pos1, r) /\ r <> Stuck.
Proof.
  intros HD fuel pos left f Hl Hf. destruct fuel as [|k].
  { assert (left = 0) as -> by lia. cbn. do 3 eexists. split; [reflexivity|discriminate]. }
  cbn [decode_chunks]. destruct (Z.eqb_spec left 0); [do 3 eexists; split; [reflexivity|discriminate]|].
  set (n0 := Z.min left CHUNK). clearbody n0. destruct (_ =? _).
  - destruct (HD f (fread_at inp pos n0)) as [e ->]. do 3 eexists. split; [reflexivity|discriminate].
  - do 3 eexists. split; [reflexivity|discriminate].
Qed.
Definition part_done (sha : hashfn) (h : header) (i : nat) (p : parth) (qf : bytes) (x : decoder bld * bytes * Z * res unit) : Prop :=
  match x with
  | (d1, f1, _, Ok _) => snd (decode_finish bld sha h i p qf d1 f1) <> Stuck
  | (_, _, _, r) => r <> Stuck
  end.
Lemma finish_snd sha h i p qf d f : (match d with
   | DPlain _ _ c => bspatch_final c <> Stuck
   | DHs _ _ _ c => bspatch_final (hp_bs c) <> Stuck
   | DLz ooff woff c => 0 <= woff -> snd (lzp_final _ qf ooff woff PATCH_BUF c f) <> Stuck
   | DMerkle => merkle_generate sha h p f <> Stuck
   | DCopy _ => True end) -> snd (decode_finish bld sha h i p qf d f) <> Stuck.
Proof.
  intros H. unfold decode_finish.
  assert (Y : forall x : bytes * res Z, snd x <> Stuck -> snd (match x with
    | (f1, Ok n) =>
      if n <? 0 then (h, f1, Err n)
      else if negb (n =? s64 (p_size p + p_pad_bytes p)) then (h, f1, Err E_SIZE_ERROR)
      else
        let h1 := set_part h i (set_p_transport_size (set_p_flags p (Z.land (p_flags p) (u8 (Z.lnot FLAG_TRANSPORT)))) 0) in
        (h1, put_header f1 h1, Ok tt)
    | (f1, Err e) => (h, f1, Err e)
    | (f1, UB) => (h, f1, UB)
    | (f1, Stuck) => (h, f1, Stuck)
    end) <> Stuck).
  { intros [f1 [n| | |]] X; cbn [snd] in *; try discriminate; [|contradiction]. destruct (n <? 0); [discriminate|]. destruct (negb _); discriminate. }
  apply Y. clear Y. destruct d as [off|ooff woff c|ooff woff il c|ooff woff c|]; cbn [snd]; try discriminate; auto.
  - destruct (Z.ltb_spec woff 0) as [W|W]; cbn [snd]; [discriminate|]. specialize (H W). destruct (lzp_final _ qf ooff woff PATCH_BUF c f) as [[? ?] ?]. exact H.
  - destruct (merkle_generate sha h p f) as [[f1 n]| | |]; cbn [snd]; try discriminate. contradiction.
Qed.
Lemma bspatch_final_total c : bspatch_final c <> Stuck.
Proof. unfold bspatch_final. destruct (bs_state c); discriminate. Qed.
Hypothesis HL : b_lzma bld = true -> lz_progresses (lz_dec (b_lib bld)).
Lemma copy_total h p : forall l off f s1 f1 r,
  feed Z (fun off f b => let ps := s64 (data_pos h p + off) in if ps <? 0 then (off, f, Err E_SEEK_ERROR) else (off + zlen b, fwrite_at f ps b, Ok tt)) off f l = (s1, f1, r) -> r <> Stuck.
Proof.
  induction l as [|b l IH]; intros off f s1 f1 r A; cbn [feed] in A; [injection A as _ _ <-; discriminate|].
  cbv zeta in A. destruct (s64 (data_pos h p + off) <? 0); [injection A as _ _ <-; discriminate|]. eapply IH. exact A.
Qed.
Lemma part_chunks_total sha h i p origin inp pos f d : Forall psz (h_parts h) -> psz p -> zlen (orig_file origin) < 2^63 ->
  decode_start bld h p origin = Ok d ->
  part_done sha h i p (orig_file origin) (decode_chunks bld (Z.to_nat (part_size p / CHUNK + 1)) h p (orig_file origin) inp pos (part_size p) d f).
Proof using HL.
  intros F P Ho. pose proof (psz_size p P) as PS.
  assert (FU : (part_size p + 4095) / 4096 <= Z.of_nat (Z.to_nat (part_size p / CHUNK + 1))) by (unfold CHUNK; rewrite Z2Nat.id; lia).
  set (fuel := Z.to_nat (part_size p / CHUNK + 1)) in *. clearbody fuel. set (qf := orig_file origin) in *. clearbody qf.
  intros E. unfold decode_start in E. destruct (decoder_id h p) as [id| | |]; cbn [bind] in E; try discriminate.
  assert (NS : forall ooff woff (dd : decoder bld), woff < 0 -> (forall f b, exists e, decode_chunk bld h p qf dd f b = (dd, f, Err e)) ->
     (exists c, dd = DPlain ooff woff c) \/ (exists il c, dd = DHs ooff woff il c) \/ (exists c, dd = DLz ooff woff c) ->
     part_done sha h i p qf (decode_chunks bld fuel h p qf inp pos (part_size p) dd f)).
  { intros ooff woff dd W A K. destruct (decode_chunks_at_once h p qf inp dd A fuel pos (part_size p) f ltac:(lia) FU) as (f1 & pos1 & r & -> & NR).
    unfold part_done. destruct r as [[]| | |]; try exact NR. apply finish_snd.
    destruct K as [[c ->]|[[il [c ->]]|[c ->]]]; try apply bspatch_final_total. intros; lia. }
  destruct (_ || _).
  - destruct origin as [q|]; [|discriminate].
    destruct (id =? ID_BSPATCH); [|destruct (id =? ID_BSPATCH_NO_COMP); [|destruct (b_lzma bld) eqn:EL; [|discriminate]]]; injection E as <-.
    + set (ooff := data_pos (pk_header q) p). set (woff := data_pos h p). clearbody ooff woff.
      destruct (Z_lt_le_dec woff 0) as [W|W].
      { apply (NS ooff woff); [exact W| |right; left; eauto]. intros f0 b. cbn [decode_chunk]. destruct (Z.ltb_spec woff 0); [eauto|lia]. }
      destruct (feed_gen hspctx (hsp_write qf ooff woff PATCH_BUF (part_size p)) (DHs ooff woff (part_size p)) h p qf inp
        ltac:(intros s f0 b; cbn [decode_chunk]; destruct (Z.ltb_spec woff 0); [lia|]; reflexivity) fuel pos (part_size p) hsp_init f ltac:(lia) FU)
        as (l & s1 & f1 & pos1 & r & -> & NE & LL & r' & A & R).
      rewrite feed_hs in A. pose proof (hs_terminates qf ooff woff PATCH_BUF (part_size p) f l ltac:(unfold PATCH_BUF; lia) W Ho
        ltac:(apply expected_nonempty; [exact NE|lia])) as T. unfold bytes in *. rewrite A in T. cbn [snd] in T.
      unfold part_done. destruct R as [-> | [-> ->]]; [|discriminate]. destruct r' as [[]| | |]; try exact T. apply finish_snd, bspatch_final_total.
    + set (ooff := data_pos (pk_header q) p). set (woff := data_pos h p). clearbody ooff woff.
      destruct (Z_lt_le_dec woff 0) as [W|W].
      { apply (NS ooff woff); [exact W| |left; eauto]. intros f0 b. cbn [decode_chunk]. destruct (Z.ltb_spec woff 0); [eauto|lia]. }
      destruct (feed_gen bsctx (bspatch_write qf ooff woff PATCH_BUF) (DPlain ooff woff) h p qf inp
        ltac:(intros s f0 b; cbn [decode_chunk]; destruct (Z.ltb_spec woff 0); [lia|]; reflexivity) fuel pos (part_size p) bs_init f ltac:(lia) FU)
        as (l & s1 & f1 & pos1 & r & -> & NE & LL & r' & A & R).
      rewrite feed_plain in A. pose proof (chunks_not_stuck qf ooff woff PATCH_BUF bs_init f l ltac:(unfold PATCH_BUF; lia) W Ho bwf_init) as T.
      unfold bytes in *. rewrite A in T. cbn [snd] in T.
      unfold part_done. destruct R as [-> | [-> ->]]; [|discriminate]. destruct r' as [[]| | |]; try exact T. apply finish_snd, bspatch_final_total.
    + set (ooff := data_pos (pk_header q) p). set (woff := data_pos h p). clearbody ooff woff.
      destruct (Z_lt_le_dec woff 0) as [W|W].
      { apply (NS ooff woff); [exact W| |right; right; eauto]. intros f0 b. cbn [decode_chunk]. destruct (Z.ltb_spec woff 0); [eauto|lia]. }
      destruct (feed_gen _ (lzp_write (lz_dec (b_lib bld)) qf ooff woff PATCH_BUF) (DLz ooff woff) h p qf inp
        ltac:(intros s f0 b; cbn [decode_chunk]; destruct (Z.ltb_spec woff 0); [lia|]; reflexivity) fuel pos (part_size p) (lzp_init _) f ltac:(lia) FU)
        as (l & s1 & f1 & pos1 & r & -> & NE & LL & r' & A & R).
      rewrite feed_lz in A. pose proof (lz_terminates (lz_dec (b_lib bld)) qf ooff woff PATCH_BUF f l (HL eq_refl) ltac:(unfold PATCH_BUF; lia) W Ho) as T.
      unfold lzp_all in T. unfold bytes in *. rewrite A in T.
      unfold part_done. destruct R as [-> | [-> ->]]; [|discriminate]. destruct r' as [[]| | |]; cbn [snd] in T; try discriminate; [|contradiction].
      apply finish_snd. intros _. destruct (lzp_final _ qf ooff woff PATCH_BUF s1 f1) as [[? ?] ?]. exact T.
  - destruct (id =? ID_MERKLE_GENERATE); [|destruct (id =? 0); [|discriminate]]; injection E as <-.
    + destruct (decode_chunks_at_once h p qf inp DMerkle ltac:(intros; eexists; reflexivity) fuel pos (part_size p) f ltac:(lia) FU) as (f1 & pos1 & r & -> & NR).
      unfold part_done. destruct r as [[]| | |]; try exact NR. apply finish_snd. apply merkle_generate_total. exact F.
    + destruct (feed_gen Z (fun off f b => let ps := s64 (data_pos h p + off) in if ps <? 0 then (off, f, Err E_SEEK_ERROR) else (off + zlen b, fwrite_at f ps b, Ok tt)) DCopy h p qf inp
        ltac:(intros s f0 b; cbn [decode_chunk]; cbv zeta; destruct (_ <? 0); reflexivity) fuel pos (part_size p) 0 f ltac:(lia) FU)
        as (l & s1 & f1 & pos1 & r & -> & NE & LL & r' & A & R).
      assert (T : r' <> Stuck).
      { exact (copy_total h p l _ _ _ _ _ A). }
      unfold part_done. destruct R as [-> | [-> ->]]; [|discriminate]. destruct r' as [[]| | |]; try exact T. apply finish_snd. exact I.
Qed.
Lemma decode_finish_psz sha h i p qf d f h1 f1 r : psz p -> Forall psz (h_parts h) -> decode_finish bld sha h i p qf d f = (h1, f1, r) -> Forall psz (h_parts h1).
Proof.
  intros P F. unfold decode_finish. destruct (match d with DCopy _ => _ | _ => _ end) as [f2 [n|e| |]]; try (intros X; injection X as <- <- <-; auto).
  destruct (n <? 0); [intros X; injection X as <- <- <-; auto|]. destruct (negb _); intros X; injection X as <- <- <-; auto.
  unfold set_part. cbn [with_parts h_parts]. apply Forall_list_upd; [exact F|]. unfold psz. cbn. lia.
Qed.
Lemma decode_part_total sha origin inp h i p pos f : Forall psz (h_parts h) -> psz p -> zlen (orig_file origin) < 2^63 ->
  snd (decode_part bld sha origin inp h i p pos f) <> Stuck /\ Forall psz (h_parts (fst (fst (fst (decode_part bld sha origin inp h i p pos f))))).
Proof using HL.
  intros F P Ho. unfold decode_part.
  destruct (match origin with Some _ => _ | None => _ end) as [[]|e| |] eqn:EO; cbn [fst snd]; try (split; [discriminate|exact F]).
  2: { exfalso. destruct origin as [q|]; [|discriminate]. pose proof (get_part_total (pk_header q) (p_id p)). destruct (get_part (pk_header q) (p_id p)); congruence. }
  pose proof (decode_start_total h p origin) as TS.
  destruct (decode_start bld h p origin) as [d|e| |] eqn:ED; cbn [fst snd]; try (split; [discriminate|exact F]); [|contradiction].
  pose proof (part_chunks_total sha h i p origin inp pos (put_header f h) d F P Ho ED) as T. fold (orig_file origin).
  destruct (decode_chunks _ _ _ _ _ _ _ _ _ _) as [[[d1 f1] pos1] r]. cbn [part_done] in T.
  destruct r as [[]|e| |]; cbn [fst snd]; try (split; [exact T|exact F]).
  destruct (decode_finish bld sha h i p (orig_file origin) d1 f1) as [[h2 f2] r2] eqn:EF. cbn [fst snd] in *. split; [exact T|]. eapply decode_finish_psz; eauto.
Qed.
Lemma decode_loop_total sha origin inp : zlen (orig_file origin) < 2^63 -> forall n h i pos f, Forall psz (h_parts h) -> snd (decode_loop bld sha origin inp n h i pos f) <> Stuck.
Proof using HL.
  intros Ho. induction n as [|n IH]; intros h i pos f F; [discriminate|]. cbn [decode_loop].
  destruct (nth_error (h_parts h) i) as [p|] eqn:E; [|discriminate]. destruct (p_id p =? 0); [discriminate|].
  assert (P : psz p) by (eapply Forall_forall; [exact F|eapply nth_error_In; exact E]).
  destruct (decode_part_total sha origin inp h i p pos f F P Ho) as [A B].
  destruct (decode_part bld sha origin inp h i p pos f) as [[[h1 f1] pos1] r]. cbn [fst snd] in A, B.
  destruct r as [[]| | |]; cbn [snd]; try discriminate; [|contradiction]. apply IH. exact B.
Qed.
Lemma set_origin_total qh ph : set_origin qh ph <> Stuck.
Proof.
  unfold set_origin. pose proof (get_meta_total qh ID_BPAK_PACKAGE 0). destruct (get_meta qh ID_BPAK_PACKAGE 0) as [i| | |]; cbn [bind]; try discriminate; [|contradiction].
  pose proof (get_meta_total ph ID_BPAK_PACKAGE 0). destruct (get_meta ph ID_BPAK_PACKAGE 0) as [j| | |]; cbn [bind]; try discriminate; [|contradiction].
  destruct (nth_error (h_meta ph) j) as [m|]; [|discriminate].
  pose proof (meta_read_total qh i 0 16). destruct (meta_read qh i 0 16) as [a| | |]; cbn [bind]; try discriminate; [|contradiction].
  destruct (_ >? _); [discriminate|]. destruct (bytes_eqb _ _); discriminate.
Qed.
Lemma transport_decode_total sha p f origin : wf_header (pk_header p) -> match origin with Some q => zlen (pk_file q) < 2^63 | None => True end ->
  snd (transport_decode bld sha p f origin) <> Stuck.
Proof using HL.
  intros W Ho. unfold transport_decode.
  assert (T : match origin with Some q => set_origin (pk_header q) (pk_header p) | None => Ok tt end <> Stuck) by (destruct origin; [apply set_origin_total|discriminate]).
  destruct (match origin with Some q => _ | None => _ end) as [u| | |]; cbn [snd]; try discriminate; [|contradiction].
  apply decode_loop_total.
  - unfold orig_file. destruct origin; [exact Ho|]. cbn. lia.
  - eapply Forall_impl; [|exact (proj2 (wf_parts _ W))]. intros a Ha. unfold psz. destruct Ha as (? & ? & ? & ? & ?). tauto.
Qed.
End T.
