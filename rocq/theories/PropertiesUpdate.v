(* PropertiesUpdate.v -- C80: updates, from the commands that make the releases
   to the file on the device *)
From Coq Require Import String.
From Verif Require Import BaseLemmas HeaderModel HeaderSpec CodecProofs CrcModel HashModel MerkleModel MerkleSpec MerkleApi VerifyModel VerifySpec MetaProofs
  PkgModel PkgSpec PkgProofs PkgHistory PkgApi PkgMerkle PkgCanon UtilModel CliModel CliSpec CliArgs CliStep CliProofs CliClaims ImageClaims
  BspatchModel BsdiffModel HsModel HsPatchModel LzModel LzSpec LzWitness TransportModel TransportSpec TransportWitness TransportCliModel TransportCliProofs
  CliFresh UpdateSpec UpdateProofs CliWitness.
Local Open Scope Z_scope.
Local Open Scope list_scope.

(* every file made by commands has contents (so [made] is met by every session
   within the limits), and a command within the limits leads to the next one *)
Theorem C80_made_next sha f w c : good_hash sha -> made sha f w -> fits w c = true ->
  exists w' out r, run_cmd sha c f = (fst (fst (run_cmd sha c f)), out, r) /\ spec_cmd sha w c w' out r /\ made sha (fst (fst (run_cmd sha c f))) w'.
Proof.
  intros G M F. destruct (made_ok sha f w G M) as (p & E & S & _). subst f. pose proof (cmd_step sha p w c G S F) as St. unfold step_ok in St.
  destruct (run_cmd sha c (pk_file p)) as [[f1 out] r] eqn:E1. destruct St as (p1 & w1 & E2 & S1 & Sc). exists w1, out, r. cbn [fst].
  split; [reflexivity|]. split; [exact Sc|]. replace f1 with (fst (fst (run_cmd sha c (pk_file p)))) by (rewrite E1; reflexivity).
  apply (made_cmd sha (pk_file p) w c w1 M F). rewrite E1. cbn [fst]. apply stored_st. exists p1. auto.
Qed.
Print Assumptions C80_made_next.

(* C80: releases made by commands; "bpak transport NEW --encode --origin OLD
   --output PATCH" has succeeded; then "bpak transport PATCH --decode --origin
   OLD --output OUT" succeeds, OUT is NEW byte for byte, and every file put into
   NEW can be extracted from OUT unchanged.
   Missing: that encoding succeeds (C38) *)
Theorem C80_update_partial bld sha sais ga fs fn new fo old st NEW OLD PATCH OUT r1 :
  (b_lzma bld = true -> lz_good (b_lib bld)) -> good_hash sha ->
  made sha fn new -> made sha fo old -> update sha new old st ->
  fs NEW = Some fn -> fs OLD = Some fo ->
  PATCH <> NEW -> PATCH <> OLD -> OUT <> PATCH -> OUT <> OLD ->
  cli_transport bld sha sais ga fs TEncode NEW (Some OLD) (Some PATCH) = r1 -> snd r1 = Some (Ok tt) ->
  (forall g, fst r1 PATCH = Some g -> zlen g < 2^62) ->
  (forall x, x <> PATCH -> fst r1 x = fs x) /\
  exists fs2 g, cli_transport bld sha sais ga (fst r1) TDecode PATCH (Some OLD) (Some OUT) = (fs2, Some (Ok tt)) /\
    fs2 OUT = Some g /\ g = fn /\ (forall x, x <> OUT -> fs2 x = fst r1 x) /\
    forall f part, In f (w_files new) -> arg_id part = f_id f -> run_cmd sha (CExtractPart part) g = (g, Some (f_data f), Ok tt).
Proof.
  intros L G Mn Mo U En Eo N1 N2 N3 N4 E1 Ok1 Lt.
  destruct (made_ok sha fn new G Mn) as (p & <- & Sp & Cp & Dp). destruct (made_ok sha fo old G Mo) as (q & <- & Sq & _ & _).
  destruct (update_transportable sha G new old p q st Sp Cp Dp Sq U) as (es & T & _ & eo & O & _).
  destruct (cli_roundtrip bld L sha sais ga fs p es st q eo NEW OLD PATCH OUT r1 G T O (pi_valid _ _ _ (st_inv _ _ _ Sp)) (pi_valid _ _ _ (st_inv _ _ _ Sq))
    En Eo N1 N2 N3 N4 E1 Ok1 Lt) as (A & fs2 & B & C & D).
  split; [exact A|]. exists fs2, (pk_file p). split; [exact B|]. split; [exact C|]. split; [reflexivity|]. split; [exact D|].
  intros f part Hf Ha. apply (extract_by_id sha (pk_file p) new part f G); auto. apply stored_st. exists p. auto.
Qed.
Print Assumptions C80_update_partial.

(* two releases: a patched program, a file system and its hash tree (generated
   on the device) *)
Definition uw_uuid : cmd := CAddMeta (b "bpak-package") None (FromString (b "0888b0fa-9c48-4524-9845-06a641b61edd")) (Some (b "uuid")).
Definition uw_base (app blk : bytes) : list cmd := [ new; uw_uuid; CAddPart (b "app") app false; CAddMerkle (b "fs") blk cw_salt false ].
Definition uw_t1 : cmd := CTransportAdd (b "app") (b "bsdiff-no-comp") (b "bspatch-no-comp").
Definition uw_t2 : cmd := CTransportAdd (b "fs-hash-tree") (b "remove-data") (b "merkle-generate").
Definition uw_block : bytes := repeat 6 (Z.to_nat 4096).
Definition uw_file (app blk : bytes) : bytes := fst (run_cmds toy_sha (uw_base app blk) []).
Definition uw_fn : bytes := fst (run_cmds toy_sha [uw_t1; uw_t2] (uw_file tw_new cw_block)).
Definition uw_fo : bytes := uw_file tw_old uw_block.
Definition uw_fs : fsys := fun x => if bytes_eqb x [110] then Some uw_fn else if bytes_eqb x [111] then Some uw_fo else None.
Definition uw_r1 : fsys * option (res unit) := cli_transport tw_build toy_sha tw_sais (mkGarbage true init_header) uw_fs TEncode [110] (Some [111]) (Some [112]).
Lemma uw_encodes : snd uw_r1 = Some (Ok tt) /\ match fst uw_r1 [112] with Some g => zlen g <? zlen uw_fn | None => false end = true.
Proof. split; vm_compute; reflexivity. Qed.
Definition uw_u : bytes := [8; 136; 176; 250; 156; 72; 69; 36; 152; 69; 6; 166; 65; 182; 30; 221].
Definition uw_m0 : list mentry := [mkEntry (idn "bpak-package") 0 uw_u].
Lemma run_last sha c f : fst (run_cmds sha [c] f) = fst (fst (run_cmd sha c f)).
Proof. cbn [run_cmds]. destruct (run_cmd sha c f) as [[x y] z]. reflexivity. Qed.
Lemma run_cons sha c cs f : fst (run_cmds sha (c :: cs) f) = fst (run_cmds sha cs (fst (fst (run_cmd sha c f)))).
Proof. cbn [run_cmds]. destruct (run_cmd sha c f) as [[x y] z]. cbn [fst]. destruct (run_cmds sha cs x). reflexivity. Qed.
Lemma run_nil sha f : fst (run_cmds sha [] f) = f. Proof. reflexivity. Qed.
Lemma uw_tree_name : idn "fs-hash-tree" = bpak_id (b "fs" ++ bytes_of "-hash-tree"). Proof. unfold idn. f_equal. Qed.
Lemma uw_salt_id : idn "merkle-salt" = ID_MERKLE_SALT. Proof. vm_compute. reflexivity. Qed.
Lemma uw_root_id : idn "merkle-root-hash" = ID_MERKLE_ROOT_HASH. Proof. vm_compute. reflexivity. Qed.
(* the steps both releases share *)
Definition uw_metas (R : bytes) : list mentry := uw_m0 ++ [mkEntry (idn "merkle-salt") (idn "fs") cw_salt; mkEntry (idn "merkle-root-hash") (idn "fs") R].
Definition uw_world (app blk T R : bytes) : world :=
  mkWorld 1 2 0 0 [] [mkFile (idn "app") 0 app; mkFile (idn "fs") 0 blk; mkFile (idn "fs-hash-tree") 0 T] (uw_metas R).
Lemma zlen_root salt d ls : zlen (root_hash toy_sha salt d ls) = 32.
Proof. unfold root_hash. destruct (zlen d =? 4096); exact (proj1 (toy_sha_good 1 _ eq_refl)). Qed.
Lemma uw_start app blk : all_bytes app && (zlen app <=? 4096) = true -> all_bytes blk = true -> zlen blk = 4096 ->
  exists ls R, hash_levels toy_sha cw_salt blk ls /\ zlen R = 32 /\ made toy_sha (uw_file app blk) (uw_world app blk (hash_tree ls) R).
Proof.
  intros Ha Hb Lb. apply andb_prop in Ha as [Ha La]. pose proof toy_sha_good as G.
  unfold uw_file, uw_base. rewrite !run_cons, run_nil.
  pose proof (made_create toy_sha None None 1 2 [] eq_refl eq_refl) as M0. fold new in M0. set (f0 := fst (fst (run_cmd toy_sha new []))) in *. clearbody f0.
  destruct (C80_made_next _ _ _ uw_uuid G M0 ltac:(vm_compute; reflexivity)) as (w1 & o1 & r1 & _ & S1 & M1).
  set (f1 := fst (fst (run_cmd toy_sha uw_uuid f0))) in *. clearbody f1. clear M0.
  assert (E1 : w1 = mkWorld 1 2 0 0 [] [] uw_m0).
  { cbn [uw_uuid spec_cmd] in S1. destruct S1 as [_ S1].
    assert (Em : meta_value (FromString (b "0888b0fa-9c48-4524-9845-06a641b61edd")) (Some (b "uuid")) = Ok uw_u) by (vm_compute; reflexivity).
    rewrite Em in S1. unfold spec_add_meta in S1. cbn [w_metas existsb] in S1. change (1920 <? meta_end [] + zlen uw_u) with false in S1. cbv iota in S1.
    injection S1 as -> _. reflexivity. }
  subst w1.
  destruct (C80_made_next _ _ _ (CAddPart (b "app") app false) G M1) as (w2 & o2 & r2 & _ & S2 & M2).
  { cbn [fits]. rewrite Ha. apply andb_true_intro. split; [vm_compute; reflexivity|]. unfold world_size. cbn [w_files map concat]. change (zlen []) with 0. lia. }
  set (f2 := fst (fst (run_cmd toy_sha (CAddPart (b "app") app false) f1))) in *. clearbody f2. clear M1.
  assert (E2 : w2 = mkWorld 1 2 0 0 [] [mkFile (idn "app") 0 app] uw_m0).
  { cbn [spec_cmd spec_pkg_op w_files existsb length Nat.leb] in S2. destruct S2 as [-> _]. reflexivity. }
  subst w2.
  destruct (C80_made_next _ _ _ (CAddMerkle (b "fs") blk cw_salt false) G M2) as (w3 & o3 & r3 & _ & S3 & M3).
  { cbn [fits]. rewrite Hb, Lb. unfold world_size. cbn [w_files map concat]. rewrite app_nil_r. unfold file_stored. cbn [f_data]. rewrite zlen_app, zlen_zeros.
    assert (Q : (4096 + (zlen app + Z.max 0 (padding (zlen app))) + 4096 + 2 ^ 40 <=? 2 ^ 63) = true).
    { apply Z.leb_le. unfold padding. pose proof (Z.mod_pos_bound (- zlen app) 512 ltac:(lia)). lia. }
    rewrite Q. vm_compute. reflexivity. }
  destruct S3 as (ls & Hl & _ & _ & ->). exists ls, (root_hash toy_sha cw_salt blk ls). split; [exact Hl|]. split; [apply zlen_root|].
  unfold uw_world, uw_metas. rewrite uw_tree_name, uw_salt_id, uw_root_id. exact M3.
Qed.
Lemma fst_cmds_app sha cs1 : forall cs2 f, fst (run_cmds sha (cs1 ++ cs2) f) = fst (run_cmds sha cs2 (fst (run_cmds sha cs1 f))).
Proof. induction cs1 as [|c cs1 IH]; intros cs2 f; [reflexivity|]. cbn [app]. rewrite !run_cons. apply IH. Qed.
Definition uw_settings (id : Z) : setting := if id =? idn "app" then Patch else if id =? idn "fs-hash-tree" then Tree else AsIs.
Lemma uw_ids : idn "app" <> idn "fs" /\ idn "app" <> idn "fs-hash-tree" /\ idn "fs" <> idn "fs-hash-tree" /\ idn "fs-hash-tree" = part_id_to_hash_tree_id (idn "fs") /\
  idn "bpak-package" <> idn "bpak-transport" /\ idn "merkle-salt" <> idn "bpak-transport" /\ idn "merkle-root-hash" <> idn "bpak-transport".
Proof. repeat split; vm_compute; try reflexivity; discriminate. Qed.
Lemma uw_transport part enc dec f w : made toy_sha f w -> existsb (has_key ID_BPAK_TRANSPORT (arg_id (b part))) (w_metas w) = false -> meta_end (w_metas w) + 32 <= 1920 ->
  fits w (CTransportAdd (b part) (b enc) (b dec)) = true ->
  exists stale, zlen stale = 24 /\ made toy_sha (fst (fst (run_cmd toy_sha (CTransportAdd (b part) (b enc) (b dec)) f)))
    (set_metas w (w_metas w ++ [mkEntry ID_BPAK_TRANSPORT (arg_id (b part)) (le 4 (idn enc) ++ le 4 (idn dec) ++ stale)])).
Proof.
  intros M Ex Me F. destruct (C80_made_next _ _ _ _ toy_sha_good M F) as (w1 & o & r & _ & (_ & stale & Ls & S) & M1). exists stale. split; [exact Ls|].
  unfold spec_add_meta in S. rewrite Ex in S.
  assert (L : zlen (le 4 (bpak_id (b enc)) ++ le 4 (bpak_id (b dec)) ++ stale) = 32) by (rewrite !zlen_app, !zlen_le, Ls; reflexivity).
  rewrite L in S. destruct (Z.ltb_spec 1920 (meta_end (w_metas w) + 32)); [lia|]. injection S as -> _. exact M1.
Qed.

Lemma uw_end R : zlen R = 32 -> meta_end (uw_metas R) = 80.
Proof. intros L. unfold uw_metas, uw_m0. cbn [app meta_end e_val]. rewrite L. vm_compute. reflexivity. Qed.
Lemma uw_fo_eq : uw_fo = uw_file tw_old uw_block. Proof. unfold uw_fo. reflexivity. Qed.
Lemma uw_fn_eq : uw_fn = fst (fst (run_cmd toy_sha uw_t2 (fst (fst (run_cmd toy_sha uw_t1 (uw_file tw_new cw_block)))))).
Proof. unfold uw_fn. rewrite run_cons, run_last. reflexivity. Qed.
Lemma uw_size_new : zlen uw_fn < 2^62. Proof. apply Z.ltb_lt. vm_compute. reflexivity. Qed.
Lemma uw_size_old : zlen uw_fo < 2^62. Proof. apply Z.ltb_lt. vm_compute. reflexivity. Qed.
Lemma uw_arg : arg_id (b "app") = idn "app" /\ arg_id (b "fs-hash-tree") = idn "fs-hash-tree" /\ ID_BPAK_TRANSPORT = idn "bpak-transport".
Proof. repeat split; vm_compute; reflexivity. Qed.
Lemma no_key id ref ms : Forall (fun e => e_id e <> id \/ e_ref e <> ref) ms -> existsb (has_key id ref) ms = false.
Proof.
  intros H. apply not_true_iff_false. intros E. apply existsb_exists in E as (e & He & K). rewrite Forall_forall in H. specialize (H e He).
  unfold has_key in K. apply andb_prop in K as [K1 K2]. apply Z.eqb_eq in K1, K2. destruct H; contradiction.
Qed.
Definition uw_final (R s1 s2 : bytes) : list mentry := uw_metas R ++
  [mkEntry (idn "bpak-transport") (idn "app") (le 4 (idn "bsdiff-no-comp") ++ le 4 (idn "bspatch-no-comp") ++ s1);
   mkEntry (idn "bpak-transport") (idn "fs-hash-tree") (le 4 (idn "remove-data") ++ le 4 (idn "merkle-generate") ++ s2)].
Lemma uw_made_new : exists ls R s1 s2, hash_levels toy_sha cw_salt cw_block ls /\
  made toy_sha uw_fn (set_metas (uw_world tw_new cw_block (hash_tree ls) R) (uw_final R s1 s2)).
Proof.
  destruct uw_ids as (I1 & I2 & I3 & I4 & I5 & I6 & I7). destruct uw_arg as (A1 & A2 & A3).
  destruct (uw_start tw_new cw_block ltac:(vm_compute; reflexivity) ltac:(vm_compute; reflexivity) ltac:(vm_compute; reflexivity)) as (ls & R & Hn & Lr & Mn).
  pose proof uw_fn_eq as En. pose proof (uw_end R Lr) as Em.
  destruct (uw_transport "app" "bsdiff-no-comp" "bspatch-no-comp" _ _ Mn) as (s1 & L1 & M1).
  { unfold uw_world. cbn [w_metas]. apply no_key. rewrite A1, A3. unfold uw_metas, uw_m0. cbn [app].
    apply Forall_cons; [left; exact I5|]. apply Forall_cons; [left; exact I6|]. apply Forall_cons; [left; exact I7|]. apply Forall_nil. }
  { unfold uw_world. cbn [w_metas]. lia. }
  { unfold uw_world. cbn [fits w_metas]. vm_compute. reflexivity. }
  match type of M1 with made _ _ ?x => set (w1 := x) in * end.
  destruct (uw_transport "fs-hash-tree" "remove-data" "merkle-generate" _ w1 M1) as (s2 & L2 & M2).
  { unfold w1, uw_world. cbn [w_metas set_metas]. apply no_key. rewrite A1, A2, A3. unfold uw_metas, uw_m0. cbn [app].
    apply Forall_cons; [left; exact I5|]. apply Forall_cons; [left; exact I6|]. apply Forall_cons; [left; exact I7|].
    apply Forall_cons; [right; exact I2|]. apply Forall_nil. }
  { unfold w1, uw_world. cbn [w_metas set_metas]. rewrite meta_end_app, Em. cbn [meta_end e_val]. rewrite !zlen_app, !zlen_le, L1.
    change (Z.of_nat 4 + (Z.of_nat 4 + 24)) with 32. change (align8 32) with 32. lia. }
  { unfold w1, uw_world. cbn [fits w_metas set_metas]. vm_compute. reflexivity. }
  exists ls, R, s1, s2. split; [exact Hn|]. rewrite En. unfold uw_final. rewrite <- A1, <- A2, <- A3.
  unfold w1 in M2. cbn [w_metas set_metas uw_world] in M2. rewrite <- app_assoc in M2. cbn [app] in M2. exact M2.
Qed.
Definition uw_nw (ls : list bytes) (R s1 s2 : bytes) : world := set_metas (uw_world tw_new cw_block (hash_tree ls) R) (uw_final R s1 s2).
(* everything about the instance but its bytes *)
Section Instance.
Context (ls : list bytes) (R s1 s2 lo Ro : bytes).
Context (Hn : hash_levels toy_sha cw_salt cw_block ls).
Local Notation nw := (uw_nw ls R s1 s2).
Local Notation od := (uw_world tw_old uw_block lo Ro).
Lemma uw_names : (idn "fs" =? idn "app") = false /\ (idn "fs-hash-tree" =? idn "app") = false /\ (idn "fs" =? idn "fs-hash-tree") = false.
Proof. repeat split; vm_compute; reflexivity. Qed.
Lemma uw_set1 : uw_settings (idn "app") = Patch. Proof. unfold uw_settings. now rewrite Z.eqb_refl. Qed.
Lemma uw_set2 : uw_settings (idn "fs") = AsIs. Proof. unfold uw_settings. destruct uw_names as (A & B & C). now rewrite A, C. Qed.
Lemma uw_set3 : uw_settings (idn "fs-hash-tree") = Tree. Proof. unfold uw_settings. destruct uw_names as (A & B & C). now rewrite B, Z.eqb_refl. Qed.
Lemma uw_in_files f : In f (w_files nw) -> f = mkFile (idn "app") 0 tw_new \/ f = mkFile (idn "fs") 0 cw_block \/ f = mkFile (idn "fs-hash-tree") 0 (hash_tree ls).
Proof. intros [<-|[<-|[<-|[]]]]; auto. Qed.
Lemma uw_in_metas e : In e (w_metas nw) -> e_id e = idn "bpak-transport" -> e_ref e <> idn "fs".
Proof.
  destruct uw_ids as (I1 & I2 & I3 & I4 & I5 & I6 & I7). intros [<-|[<-|[<-|[<-|[<-|[]]]]]]; cbn [e_id e_ref]; intros E X; [exact (I5 E)|exact (I6 E)|exact (I7 E)|exact (I1 X)|exact (I3 (eq_sym X))].
Qed.
Lemma uw_travel f : In f (w_files nw) -> travels_as nw (f_id f) (uw_settings (f_id f)).
Proof.
  intros Hf. destruct (uw_in_files f Hf) as [->|[->| ->]]; cbn [f_id]; rewrite ?uw_set1, ?uw_set2, ?uw_set3; unfold travels_as; cbn [algorithms].
  - exists (mkEntry (idn "bpak-transport") (idn "app") (le 4 (idn "bsdiff-no-comp") ++ le 4 (idn "bspatch-no-comp") ++ s1)), s1.
    split; [right; right; right; left; reflexivity|]. cbn [e_id e_ref e_val]. auto.
  - intros e He [X Y]. exact (uw_in_metas e He X Y).
  - exists (mkEntry (idn "bpak-transport") (idn "fs-hash-tree") (le 4 (idn "remove-data") ++ le 4 (idn "merkle-generate") ++ s2)), s2.
    split; [right; right; right; right; left; reflexivity|]. cbn [e_id e_ref e_val]. auto.
Qed.
Lemma uw_tree f : In f (w_files nw) -> uw_settings (f_id f) = Tree -> tree_file toy_sha nw f.
Proof.
  destruct uw_ids as (_ & _ & _ & I4 & _).
  intros Hf. destruct (uw_in_files f Hf) as [->|[->| ->]]; cbn [f_id]; rewrite ?uw_set1, ?uw_set2, ?uw_set3; intros X; [discriminate X|discriminate X|clear X].
  exists [mkFile (idn "app") 0 tw_new], (mkFile (idn "fs") 0 cw_block), [], [], cw_salt, ls. cbn [f_id f_data].
  split; [reflexivity|]. split; [exact I4|]. split; [right; left; reflexivity|].
  assert (L : zlen cw_block = 4096) by (vm_compute; reflexivity).
  split; [vm_compute; reflexivity|]. rewrite L. split; [lia|]. split; [reflexivity|]. split; [exact Hn|reflexivity].
Qed.
Lemma uw_update : world_size nw < 2^62 -> world_size od < 2^62 -> update toy_sha nw od uw_settings.
Proof.
  intros Z1 Z2. constructor.
  - discriminate.
  - exact uw_travel.
  - exact uw_tree.
  - exists uw_u, [], (tl (uw_final R s1 s2)), [], (tl (uw_metas Ro)). split; [vm_compute; reflexivity|]. split; [reflexivity|]. split; reflexivity.
  - intros f Hf. destruct (uw_in_files f Hf) as [->|[->| ->]]; cbn [f_id].
    + exists (mkFile (idn "app") 0 tw_old). split; [left|]; reflexivity.
    + exists (mkFile (idn "fs") 0 uw_block). split; [right; left|]; reflexivity.
    + exists (mkFile (idn "fs-hash-tree") 0 lo). split; [right; right; left|]; reflexivity.
  - split; assumption.
Qed.
End Instance.
Lemma made_size sha f w : good_hash sha -> made sha f w -> zlen f = world_size w.
Proof. intros G M. destruct (made_ok sha f w G M) as (p & <- & S & _). exact (st_size _ _ _ S). Qed.
Lemma made_small fn fo new old (st : Z -> setting) : zlen fn < 2^62 -> zlen fo < 2^62 -> made toy_sha fn new -> made toy_sha fo old ->
  (world_size new < 2^62 -> world_size old < 2^62 -> update toy_sha new old st) ->
  exists new old, made toy_sha fn new /\ made toy_sha fo old /\ update toy_sha new old st.
Proof.
  intros Z1 Z2 Mn Mo U. exists new, old. split; [exact Mn|]. split; [exact Mo|]. apply U.
  - rewrite <- (made_size _ _ _ toy_sha_good Mn). exact Z1.
  - rewrite <- (made_size _ _ _ toy_sha_good Mo). exact Z2.
Qed.
Lemma uw_made_new' : exists ls R s1 s2, hash_levels toy_sha cw_salt cw_block ls /\ made toy_sha uw_fn (uw_nw ls R s1 s2).
Proof. exact uw_made_new. Qed.
Lemma uw_made_old : exists lo Ro, made toy_sha uw_fo (uw_world tw_old uw_block lo Ro).
Proof.
  destruct (uw_start tw_old uw_block ltac:(vm_compute; reflexivity) ltac:(vm_compute; reflexivity) ltac:(vm_compute; reflexivity)) as (lo & Ro & _ & _ & Mo).
  exists (hash_tree lo), Ro. rewrite uw_fo_eq. exact Mo.
Qed.
Lemma uw_made : exists new old, made toy_sha uw_fn new /\ made toy_sha uw_fo old /\ update toy_sha new old uw_settings.
Proof.
  destruct uw_made_new' as (ls & R & s1 & s2 & Hn & Mn). destruct uw_made_old as (lo & Ro & Mo).
  exact (made_small uw_fn uw_fo (uw_nw ls R s1 s2) (uw_world tw_old uw_block lo Ro) uw_settings uw_size_new uw_size_old Mn Mo (uw_update ls R s1 s2 lo Ro Hn)).
Qed.
Example C80_instance : good_hash toy_sha /\ (exists new old, made toy_sha uw_fn new /\ made toy_sha uw_fo old /\ update toy_sha new old uw_settings) /\
  snd uw_r1 = Some (Ok tt) /\ (forall g, fst uw_r1 [112] = Some g -> zlen g < zlen uw_fn).
Proof.
  split; [exact toy_sha_good|]. split; [exact uw_made|]. destruct uw_encodes as [A B]. split; [exact A|]. intros g E. rewrite E in B. now apply Z.ltb_lt.
Qed.
