(* PropertiesEncode.v -- C81 (size of patches), C38 (when encoding succeeds),
   C80 (whole updates) *)
From Coq Require Import String.
From Verif Require Import BaseLemmas HeaderModel HeaderSpec CodecProofs CrcModel HashModel MerkleModel MerkleSpec MerkleApi VerifyModel VerifySpec MetaProofs
  PkgModel PkgSpec PkgProofs PkgHistory PkgApi PkgMerkle PkgCanon UtilModel CliModel CliSpec CliArgs CliStep CliProofs CliClaims ImageClaims
  BspatchModel BspatchProofs BsdiffModel BsdiffProofs BsdiffSafe BsdiffSize HsModel HsSpec HsPatchModel HsPatchFinal LzModel LzSpec LzWitness
  TransportModel TransportSpec TransportMain TransportWitness TransportCliModel TransportCliProofs
  CliFresh UpdateSpec UpdateProofs CliWitness EncodeSpec EncodeSuccess PropertiesUpdate.
Local Open Scope Z_scope.
Local Open Scope list_scope.

(* C81: a patch is at most 49 times as long as its target, plus 48 bytes;
   compressed with heatshrink, at most twice that *)
Theorem C81_patch_size o n sa pf poff pf1 k : bytes_ok n -> zlen o < 2^62 -> zlen n < 2^62 -> 0 <= poff ->
  bsdiff_none o n sa pf poff = Ok (pf1, k) -> 0 <= k <= 49 * zlen n + 48.
Proof.
  intros Hn Bo Bn Hp E. unfold bsdiff_none in E. apply bind_ok in E as (l & E1 & E). rewrite write_all_concat in E by lia. injection E as _ <-.
  pose proof (zlen_nonneg (concat l)). pose proof (bsdiff_len o n sa l Hn Bo Bn E1). lia.
Qed.
Print Assumptions C81_patch_size.
Theorem C81_compressed_patch_size o n sa pf poff pf1 k : bytes_ok n -> zlen o < 2^62 -> zlen n < 2^62 -> 0 <= poff ->
  bsdiff_hs o n sa pf poff = Ok (pf1, k) -> 0 <= k <= 98 * zlen n + 96.
Proof.
  intros Hn Bo Bn Hp E. destruct (bsdiff_chunks o n sa) as [l|e| |] eqn:E1; try (unfold bsdiff_hs in E; rewrite E1 in E; discriminate E).
  destruct (hs_diff_ok o n sa pf poff l Hn Bo Bn Hp E1) as (p & E2 & C). rewrite E2 in E. injection E as _ <-.
  pose proof (zlen_nonneg p). pose proof (bsdiff_len o n sa l Hn Bo Bn E1). pose proof (compressed_len _ _ C). lia.
Qed.
Print Assumptions C81_compressed_patch_size.
(* compression itself at most doubles its input, whatever it is (C36: the
   output of the encoder is [compressed]) *)
Theorem C81_compression_size (c s : bytes) : compressed c s -> zlen c <= 2 * zlen s.
Proof. exact (compressed_len c s). Qed.
Print Assumptions C81_compression_size.
Example C81_instance : bytes_ok [5; 6; 7; 8] /\
  exists f k g m, bsdiff_none [1; 2; 3] [5; 6; 7; 8] [3; 0; 1; 2] [] 0 = Ok (f, k) /\ bsdiff_hs [1; 2; 3] [5; 6; 7; 8] [3; 0; 1; 2] [] 0 = Ok (g, m) /\ m < k.
Proof. split; [repeat constructor; unfold byte_ok; lia|]. do 4 eexists. split; [vm_compute; reflexivity|]. split; [vm_compute; reflexivity|lia]. Qed.

(* C38: encoding succeeds whenever every patch can be made *)
Theorem C38_encoding_succeeds bld sha sais p es st q eo oh0 f0 :
  transportable sha p es st -> origin_for q eo p es -> zlen (pk_file p) < 2^61 -> makes_patches bld sais eo es st ->
  exists pe, transport_encode bld sais p oh0 f0 (Some q) = (pe, Ok tt) /\ zlen (pk_file pe) < Z.max (zlen f0 + 1) (2^62).
Proof. exact (encode_succeeds bld sha sais p es st q eo oh0 f0). Qed.
Print Assumptions C38_encoding_succeeds.

Lemma stored_size_bound f : zlen (file_stored f) < zlen (f_data f) + 512.
Proof.
  unfold file_stored. rewrite zlen_app, zlen_zeros. unfold padding. pose proof (Z.mod_pos_bound (- zlen (f_data f)) 512 ltac:(lia)). lia.
Qed.
Lemma patches_of bld sais new old st es eo : can_encode bld sais new old st ->
  comes_from (w_files new) es -> comes_from (w_files old) eo ->
  Forall (fun e : parth * bytes => bytes_ok (snd e) /\ zlen (snd e) < 2^62) es -> Forall (fun e : parth * bytes => zlen (snd e) < 2^62) eo ->
  makes_patches bld sais eo es st.
Proof.
  intros C Fn Fo Be Bo e o He Ho Eid Pt. destruct (Fn e He) as (f & Hf & E1 & E2). destruct (Fo o Ho) as (g & Hg & E3 & E4).
  rewrite Forall_forall in Be, Bo. destruct (Be e He) as [Bb Be1]. specialize (Bo o Ho).
  destruct (C f g Hf Hg ltac:(congruence) ltac:(now rewrite <- E2)) as (sa & Sa & P). rewrite E2. rewrite E1, E3 in *.
  pose proof (stored_size_bound f). split.
  - intros El. rewrite El in P. apply P.
  - exists sa. split; [exact Sa|]. unfold makes_patch. destruct (st (f_id f)) eqn:Es.
    + exfalso. rewrite E2, Es in Pt. destruct Pt as [X|[X|X]]; discriminate X.
    + destruct P as [Z1 (l & El)]. assert (N : bsdiff_none (file_stored g) (file_stored f) sa [] 0 = Ok (fst (write_all [] 0 0 l), snd (write_all [] 0 0 l))).
      { unfold bsdiff_none. rewrite El. cbn [bind]. now rewrite <- surjective_pairing. }
      do 2 eexists. split; [exact N|]. apply C81_patch_size in N; auto; lia.
    + destruct P as [Z1 (l & El)]. destruct (hs_diff_ok (file_stored g) (file_stored f) sa [] 0 l Bb Bo Be1 ltac:(lia) El) as (x & N & _).
      do 2 eexists. split; [exact N|]. apply C81_compressed_patch_size in N; auto; lia.
    + destruct P as [_ P]. exact P.
    + exfalso. rewrite E2, Es in Pt. destruct Pt as [X|[X|X]]; discriminate X.
Qed.
Lemma entry_small p (es : list (parth * bytes)) e : holds p es -> In e es -> zlen (snd e) <= zlen (pk_file p).
Proof.
  intros H He. apply in_split in He as (a & b & ->). rewrite (ho_file _ _ H), zlen_app, map_app, concat_app. cbn [map concat]. rewrite !zlen_app.
  pose proof (zlen_nonneg (enc_header (pk_header p))). pose proof (zlen_nonneg (concat (map snd a))). pose proof (zlen_nonneg (concat (map snd b))). lia.
Qed.
(* C80, with encoding: both commands succeed and the new release arrives *)
Theorem C80_update_succeeds_partial bld sha sais ga fs fn new fo old st NEW OLD PATCH OUT :
  (b_lzma bld = true -> lz_good (b_lib bld)) -> good_hash sha ->
  made sha fn new -> made sha fo old -> update sha new old st -> world_size new < 2^61 -> can_encode bld sais new old st ->
  fs NEW = Some fn -> fs OLD = Some fo ->
  PATCH <> NEW -> PATCH <> OLD -> OUT <> PATCH -> OUT <> OLD ->
  exists fs1 fs2, cli_transport bld sha sais ga fs TEncode NEW (Some OLD) (Some PATCH) = (fs1, Some (Ok tt)) /\
    cli_transport bld sha sais ga fs1 TDecode PATCH (Some OLD) (Some OUT) = (fs2, Some (Ok tt)) /\
    fs2 OUT = Some fn /\ (forall x, x <> PATCH -> x <> OUT -> fs2 x = fs x) /\
    forall f part, In f (w_files new) -> arg_id part = f_id f -> run_cmd sha (CExtractPart part) fn = (fn, Some (f_data f), Ok tt).
Proof.
  intros L G Mn Mo U Sz Ce En Eo N1 N2 N3 N4.
  destruct (made_ok sha fn new G Mn) as (p & Ep & Sp & Cp & Dp). destruct (made_ok sha fo old G Mo) as (q & Eq & Sq & _ & _).
  destruct (update_transportable sha G new old p q st Sp Cp Dp Sq U) as (es & T & Fn & eo & O & Fo).
  assert (Bp : zlen (pk_file p) < 2^61) by (rewrite (st_size _ _ _ Sp); exact Sz).
  assert (Mk : makes_patches bld sais eo es st).
  { eapply patches_of; eauto.
    - apply Forall_forall. intros e He. split; [pose proof (tp_bytes _ _ _ _ T) as B; rewrite Forall_forall in B; now apply B|].
      pose proof (entry_small p es e (tp_holds _ _ _ _ T) He). pose proof (tp_size _ _ _ _ T). lia.
    - apply Forall_forall. intros o Ho. pose proof (entry_small q eo o (og_holds _ _ _ _ O) Ho). pose proof (og_size _ _ _ _ O). lia. }
  destruct (encode_succeeds bld sha sais p es st q eo (fresh_header sha) (pk_file (fresh_pkg sha)) T O Bp Mk) as (pe & E & Lt).
  assert (R1 : t_run bld sha sais ga TEncode p (Some q) (fresh_pkg sha) = (pk_file pe, Ok tt)).
  { cbn [t_run]. change (pk_header (fresh_pkg sha)) with (fresh_header sha). now rewrite E. }
  assert (Op : pkg_open sha true (pk_file p) = (pk_file p, Ok p)) by exact (reopen sha true p es (tp_holds _ _ _ _ T) (pi_valid _ _ _ (st_inv _ _ _ Sp))).
  assert (Oq : pkg_open sha true (pk_file q) = (pk_file q, Ok q)) by exact (reopen sha true q eo (og_holds _ _ _ _ O) (pi_valid _ _ _ (st_inv _ _ _ Sq))).
  rewrite <- Ep in En. rewrite <- Eq in Eo.
  destruct (cli_ok bld sha sais ga fs TEncode NEW (Some OLD) PATCH p (Some q) _ _ G En Op (conj Eo Oq) N1 N2 R1) as (fs1 & C1 & P1 & P2).
  assert (Lt1 : forall g, fst (fs1, Some (Ok tt) : option (res unit)) PATCH = Some g -> zlen g < 2^62).
  { cbn [fst]. intros g Eg. assert (g = pk_file pe) by congruence. subst g. rewrite (fresh_len sha G) in Lt. lia. }
  rewrite Ep in En. rewrite Eq in Eo.
  destruct (C80_update_partial bld sha sais ga fs fn new fo old st NEW OLD PATCH OUT (fs1, Some (Ok tt)) L G Mn Mo U En Eo N1 N2 N3 N4 C1 eq_refl Lt1)
    as (A & fs2 & g & B & C & -> & D & X). cbn [fst] in *.
  exists fs1, fs2. split; [exact C1|]. split; [exact B|]. split; [exact C|]. split; [|exact X].
  intros x X1 X2. rewrite D by exact X2. now apply A.
Qed.
Print Assumptions C80_update_succeeds_partial.

(* a suffix array with one more entry (C34) makes every update possible *)
Lemma tw_sais_long o : zlen (match tw_sais o with Some s => s | None => [] end) = zlen o + 1.
Proof. unfold tw_sais. rewrite zlen_cons. unfold zlen. rewrite map_length, seq_length. lia. Qed.
Theorem C80_long_suffix_array bld sais new old st :
  (forall o, exists sa, sais o = Some sa /\ zlen sa = zlen o + 1 /\ Forall (fun p => 0 <= p <= zlen o) sa) ->
  (forall f, In f (w_files new) -> bytes_ok (f_data f) /\ zlen (f_data f) < 2^30 /\ st (f_id f) <> PatchLz) ->
  (forall g, In g (w_files old) -> zlen (f_data g) < 2^61) ->
  can_encode bld sais new old st.
Proof.
  intros Hs Hn Ho f g Hf Hg Eid Pt. destruct (Hs (file_stored g)) as (sa & Sa & L & F). exists sa. split; [exact Sa|].
  destruct (Hn f Hf) as (Bf & Lf & Nl). specialize (Ho g Hg). pose proof (stored_size_bound f). pose proof (stored_size_bound g).
  assert (X : zlen (f_data f) < 2^46 /\ exists l, bsdiff_chunks (file_stored g) (file_stored f) sa = Ok l).
  { split; [lia|]. apply bsdiff_in_good; try lia.
    - unfold file_stored. apply bytes_ok_app. split; [exact Bf|apply bytes_ok_zeros].
    - unfold small. lia.
    - split; assumption. }
  destruct (st (f_id f)); try exact X. now elim Nl.
Qed.
Print Assumptions C80_long_suffix_array.
Lemma uw_can_encode ls R s1 s2 lo Ro : can_encode tw_build tw_sais (uw_nw ls R s1 s2) (uw_world tw_old uw_block lo Ro) uw_settings.
Proof.
  intros f g Hf Hg Eid Pt. destruct uw_names as (I1 & I2 & I3).
  destruct (uw_in_files ls R s1 s2 f Hf) as [->|[->| ->]]; cbn [f_id] in *; rewrite ?uw_set1, ?uw_set2, ?uw_set3 in *;
    try (exfalso; destruct Pt as [X|[X|X]]; discriminate X).
  assert (Lg : exists x, g = mkFile (f_id g) 0 x /\ zlen x < 2^61).
  { destruct Hg as [<-|[<-|[<-|[]]]]; cbn [f_id] in *.
    - exists tw_old. split; [reflexivity|]. vm_compute. reflexivity.
    - apply Z.eqb_neq in I1. contradiction.
    - apply Z.eqb_neq in I2. contradiction. }
  destruct Lg as (x & Eg & Lx). exists (zlen (file_stored g) :: map Z.of_nat (seq 0 (length (file_stored g)))).
  split; [reflexivity|]. split; [vm_compute; reflexivity|].
  assert (Sx : zlen (file_stored g) < 2^62) by (rewrite Eg; pose proof (stored_size_bound (mkFile (f_id g) 0 x)) as S; cbn [f_data] in S; lia).
  apply bsdiff_in_good; auto.
  - unfold file_stored. cbn [f_data]. apply bytes_ok_app. split; [|apply bytes_ok_zeros]. apply all_bytes_ok. vm_compute. reflexivity.
  - vm_compute. reflexivity.
  - unfold small. assert (zlen (file_stored (mkFile (idn "app") 0 tw_new)) < 2^31) by (vm_compute; reflexivity). lia.
  - split.
    + exact (tw_sais_long (file_stored g)).
    + constructor; [pose proof (zlen_nonneg (file_stored g)); lia|]. apply Forall_forall. intros y Hy. apply in_map_iff in Hy as (k & <- & Hk).
      apply in_seq in Hk. unfold zlen. lia.
Qed.
Example C80_succeeds_instance : good_hash toy_sha /\
  exists new old, made toy_sha uw_fn new /\ made toy_sha uw_fo old /\ update toy_sha new old uw_settings /\ world_size new < 2^61 /\
    can_encode tw_build tw_sais new old uw_settings.
Proof.
  split; [exact toy_sha_good|]. destruct uw_made_new' as (ls & R & s1 & s2 & Hn & Mn). destruct uw_made_old as (lo & Ro & Mo).
  pose proof (made_size _ _ _ toy_sha_good Mn) as Z1. pose proof (made_size _ _ _ toy_sha_good Mo) as Z2.
  pose proof uw_size_old as L2. assert (L1 : zlen uw_fn < 2^61) by (apply Z.ltb_lt; vm_compute; reflexivity).
  rewrite Z1 in L1. rewrite Z2 in L2.
  exists (uw_nw ls R s1 s2), (uw_world tw_old uw_block lo Ro). split; [exact Mn|]. split; [exact Mo|].
  split; [apply uw_update; [exact Hn| |exact L2]; eapply Z.lt_trans; [exact L1|reflexivity]|]. split; [exact L1|]. apply uw_can_encode.
Qed.
