(* CliSign.v -- signing and verifying what the commands have built *)
From Coq Require Import String.
From Verif Require Import BaseLemmas HeaderModel HeaderSpec HeaderHistory CodecProofs PartProofs MetaProofs CrcModel CrcProofs HashModel
  MerkleModel MerkleSpec MerkleApi VerifyModel VerifySpec VerifyProofs VerifySign VerifyAgree VerifyWitness PkgModel PkgSpec PkgProofs PkgAdd PkgDelete PkgHistory PkgApi PkgTrees PkgMerkle
  TransportFile UtilModel KeystoreModel KeystoreSpec KeystoreProofs CliModel CliSpec CliMeta CliArgs CliStep CliProofs.
Local Open Scope Z_scope.

(* every root hash in the package belongs to a file with that very tree *)
Record trees_right (sha : hashfn) (w : world) : Prop := {
  tr_sized : forall e, In e (w_metas w) -> e_id e = ID_MERKLE_SALT \/ e_id e = ID_MERKLE_ROOT_HASH -> zlen (e_val e) = 32;
  tr_trees : forall e, In e (w_metas w) -> e_id e = ID_MERKLE_ROOT_HASH ->
    exists name f t salt ls,
      e_ref e = bpak_id name /\ bytes_ok name /\
      In f (w_files w) /\ f_id f = bpak_id name /\
      In t (w_files w) /\ f_id t = bpak_id (name ++ bytes_of "-hash-tree") /\
      In (mkEntry ID_MERKLE_SALT (bpak_id name) salt) (w_metas w) /\
      0 < zlen (f_data f) <= 2^33 /\ zlen (f_data f) mod 4096 = 0 /\
      hash_levels sha salt (f_data f) ls /\ f_data t = hash_tree ls /\ e_val e = root_hash sha salt (f_data f) ls }.

Lemma in_matches fs es f : Forall2 file_matches fs es -> In f fs -> exists e, In e es /\ file_matches f e.
Proof. induction 1 as [|g e fs es M _ IH]; [contradiction|]. intros [<-|Hin]; [exists e; split; [now left|auto]|]. destruct (IH Hin) as (x & A & B). exists x. split; [now right|auto]. Qed.
Lemma same_entry (es : list (parth * bytes)) a b : NoDup (map (fun e : parth * bytes => p_id (fst e)) es) -> In a es -> In b es ->
  p_id (fst a) = p_id (fst b) -> a = b.
Proof.
  induction es as [|x es IH]; [contradiction|]. cbn [map]. intros N Ha Hb E. inversion N as [|? ? N1 N2]; subst.
  destruct Ha as [<-|Ha], Hb as [<-|Hb]; auto.
  - elim N1. rewrite E. now apply (in_map (fun e : parth * bytes => p_id (fst e))).
  - elim N1. rewrite <- E. now apply (in_map (fun e : parth * bytes => p_id (fst e))).
Qed.
Lemma padding_block n : n mod 4096 = 0 -> padding n = 0.
Proof. intros H. unfold padding. apply Z.mod_opp_l_z; [lia|]. change 4096 with (512 * 8) in H. lia. Qed.
Lemma tree_id_eq name : part_id_to_hash_tree_id (bpak_id name) = bpak_id (name ++ bytes_of "-hash-tree").
Proof. rewrite <- hash_tree_id_name. unfold part_name_to_hash_tree_id. reflexivity. Qed.
(* such packages verify *)
Lemma trees_right_verify sha p w : good_hash sha -> st sha p w -> trees_right sha w ->
  verify_trees_loop sha (pk_header p) (file_rd (pk_file p)) 4096 (h_parts (pk_header p)) = Ok tt.
Proof.
  intros G S [T1 T2]. pose proof S as [I M _]. pose proof I as [(es & H & O & F) P V Hs Ms D].
  assert (Nz : forall e : parth * bytes, In e es -> p_id (fst e) <> 0).
  { pose proof (ho_nonzero _ _ H) as N. rewrite Forall_forall in N. exact N. }
  apply (trees_iff sha p es (w_metas w)); auto.
  - apply (hm_are _ _ M).
  - apply Forall_forall. intros e He Ht. apply (T1 e He). exact Ht.
  - intros e root He Hr. destruct (T2 _ Hr eq_refl) as (name & f & t & salt & ls & E1 & _ & _ & _ & Ht & E2 & _). cbn [e_ref] in E1.
    destruct (in_matches _ _ _ F Ht) as (x & Hx & Mx). destruct Mx as (_ & Ex & _). rewrite E1.
    rewrite tree_id_eq, <- E2, <- Ex. now apply Nz.
  - intros e root He Hr. destruct (T2 _ Hr eq_refl) as (name & f & t & salt & ls & E1 & _ & Hf & Ef & Ht & Et & Hsa & L1 & L2 & Hls & Etd & Ev).
    cbn [e_ref e_val] in E1, Ev.
    destruct (in_matches _ _ _ F Hf) as (xf & Hxf & Mf1 & Mf2 & Mf3 & Mf4 & Mf5). destruct (in_matches _ _ _ F Ht) as (xt & Hxt & Mt1 & Mt2 & Mt3 & Mt4 & Mt5).
    assert (Exf : e = xf) by (apply (same_entry es); auto; [apply (ho_distinct _ _ H)|congruence]). subst xf.
    exists salt, xt. split; [rewrite E1; exact Hsa|]. split; [exact Hxt|]. split.
    { rewrite E1, tree_id_eq, <- Et. exact Mt2. }
    assert (Lsalt : zlen salt = 32) by (apply (T1 _ Hsa); left; reflexivity).
    destruct (build_tree_ok sha (f_data f) salt ls G L1 L2 Lsalt Hls) as (_ & _ & Lt).
    pose proof (padding_block _ L2) as Pf. pose proof (padding_block _ Lt) as Pt.
    unfold file_stored in Mf1, Mt1. rewrite Etd in *. rewrite Pf in Mf1, Mf5. rewrite Pt in Mt1, Mt5. change (zeros 0) with (@nil Z) in *. rewrite app_nil_r in Mf1, Mt1.
    destruct e as [q c], xt as [qt ct]. cbn [fst snd] in *. subst c ct.
    pose proof (in_split _ _ Hxf) as (a & b & Es). pose proof (in_split _ _ Hxt) as (a2 & b2 & Es2).
    pose proof H as H1. rewrite Es in H1. pose proof H as H2. rewrite Es2 in H2.
    rewrite (part_offset_at _ _ _ _ _ H1), (part_offset_at _ _ _ _ _ H2).
    destruct (entry_wf _ _ _ H Hxf) as (Wq & Sq & Bq). cbn [fst snd] in *.
    rewrite part_size_stored by (auto; lia). rewrite <- Sq.
    pose proof (ho_file _ _ H1) as F1. pose proof (ho_file _ _ H2) as F2. pose proof (zlen_enc_header _ (ho_wf _ _ H)) as Le.
    rewrite map_app, concat_app in F1, F2. cbn [map snd concat] in F1, F2.
    assert (LP : zlen (enc_header (pk_header p) ++ concat (map snd a2)) = 4096 + zlen (concat (map snd a2))) by (rewrite zlen_app; lia).
    rewrite <- LP, Ev. pose proof (zlen_nonneg (concat (map snd a))). pose proof (zlen_nonneg (concat (map snd b))).
    apply (verify_genuine sha (pk_file p) _ (concat (map snd b2)) ls); auto; try lia.
    + rewrite F2, <- !app_assoc. reflexivity.
    + rewrite F1, !zlen_app. lia.
    + rewrite F1, app_assoc. apply slice_app_exact; [rewrite zlen_app; lia|reflexivity].
Qed.

(* ---- sign ---- *)
Definition set_sig (w : world) (s : bytes) : world := mkWorld (w_hash w) (w_sign w) (w_key w) (w_keystore w) s (w_files w) (w_metas w).
Lemma splice_same_slice (d l : bytes) : zlen d <= zlen l -> slice 0 (zlen d) l = d -> splice 0 d l = l.
Proof.
  intros L E. unfold splice. rewrite ztake_0, Z.add_0_l. cbn [app]. rewrite slice_0 in E. rewrite <- E at 1. apply ztake_zdrop.
Qed.
Lemma with_same_payload_hash h : with_payload_hash h (h_payload_hash h) = h.
Proof. destruct h; reflexivity. Qed.
Lemma inv_ready sha p fs : pkg_inv sha p fs ->
  let h := pk_header p in let f := pk_file p in
  wf_header h /\ sizes_ok (h_parts h) /\ 4096 + sum_sizes (h_parts h) < 2^63 /\ 4096 <= zlen f /\
  payload_present f 4096 (h_parts h) /\ hashed_payload f 4096 (h_parts h) = files_covered fs.
Proof.
  intros I. pose proof (pkg_files_bound _ _ _ I) as Bf. pose proof I as [(es & H & O & F) P V Hs Ms D]. cbn zeta.
  assert (Tb : h_parts (pk_header p) = table (map fst es)) by (unfold table; rewrite map_length; apply (ho_table _ _ H)).
  pose proof (ho_bound _ _ H) as B. rewrite (ho_file _ _ H), zlen_app, zlen_enc_header in B by apply (ho_wf _ _ H).
  destruct (payload_of_contents (pk_file p) (enc_header (pk_header p)) es []) as [P1 P2].
  - apply zlen_enc_header. apply (ho_wf _ _ H).
  - rewrite app_nil_r. apply (ho_file _ _ H).
  - apply (ho_sizes _ _ H).
  - apply (ho_nonzero _ _ H).
  - rewrite <- Tb in P1, P2. split; [apply (ho_wf _ _ H)|]. split.
    { rewrite Tb. apply sizes_of; [apply (ho_sizes _ _ H)|eapply wf_parts_app; [apply (ho_wf _ _ H)|apply (ho_table _ _ H)]|lia]. }
    split.
    { rewrite (ho_table _ _ H), sum_sizes_app, sum_zero_parts. rewrite sum_contents in B by apply (ho_sizes _ _ H). lia. }
    split; [lia|]. split; [exact P1|]. rewrite P2. now apply files_covered_eq.
Qed.
Lemma sign_writes {K} sha (sg : sigscheme K) junk p key p' : pkg_sign sha sg junk p key = (p', Ok tt) ->
  pk_file p' = fwrite_at (pk_file p) 0 (enc_header (pk_header p')).
Proof.
  unfold pkg_sign. intros E.
  assert (Fu : pk_file (fst (pkg_update_hash sha p (Some 64))) = pk_file p).
  { unfold pkg_update_hash. destruct (compute_payload_hash _ _ _ _ _); reflexivity. }
  destruct (pkg_update_hash sha p (Some 64)) as [p1 [x|e| |]]; try discriminate. cbn [fst] in Fu.
  match type of E with match ?t with _ => _ end = _ => destruct t as [d|e| |] end; try discriminate.
  injection E as <-. unfold pkg_write_header. cbn [pk_header pk_file]. rewrite Fu. reflexivity.
Qed.
Theorem sign_step {K} sha (sg : sigscheme K) pub_of junk1 junk2 p w key s : good_hash sha -> correct_scheme sg pub_of -> st sha p w ->
  sg_sign sg (sha (w_hash w) (enc_header (unsigned (pk_header p)))) (w_hash w) key = Ok s ->
  exists p', cli_sign sha sg junk1 (Ok key) (pk_file p) = (pk_file p', None, Ok tt) /\ st sha p' (set_sig w s) /\
    pk_header p' = with_signature (pk_header p) (s ++ zeros (512 - zlen s)) (zlen s) /\ zlen s <= 512 /\
    pkg_verify sha sg junk2 p' (pub_of key) = verify_trees_loop sha (pk_header p) (file_rd (pk_file p)) 4096 (h_parts (pk_header p)).
Proof.
  intros G C S Sg. pose proof S as [I M St]. pose proof St as (S1 & S2 & S3 & S4 & S5 & S6).
  destruct (inv_ready _ _ _ I) as (W & Sz & Sb & Lf & Pp & Hp). cbn zeta in *. pose proof (pi_hash _ _ _ I) as Hs. pose proof (pi_digest _ _ _ I) as D.
  destruct (G _ (files_covered (w_files w)) Hs) as [D1 D2]. pose proof (digest_len_le (h_hash_kind (pk_header p))) as Dle.
  destruct (wf_payload_hash _ W) as [Lp Bp].
  pose proof (sign_then_verify sha sg G junk1 junk2 pub_of p key C W Sz Sb Hs Lf Pp) as T. cbn zeta in T. rewrite Hp in T.
  rewrite splice_same_slice in T by (rewrite ?D1; auto; lia). rewrite with_same_payload_hash in T. rewrite S1 in T.
  destruct (T s Sg) as (p' & E1 & E2 & E3 & E4 & E5 & E6 & E7).
  assert (Bd : bytes_ok (sha (w_hash w) (enc_header (unsigned (pk_header p)))) /\ zlen (sha (w_hash w) (enc_header (unsigned (pk_header p)))) = digest_len (w_hash w)).
  { rewrite <- S1. destruct (G (h_hash_kind (pk_header p)) (enc_header (unsigned (pk_header p))) Hs). auto. }
  destruct (C _ _ _ _ (proj1 Bd) (proj2 Bd) ltac:(rewrite <- S1; exact Hs) Sg) as (Ls & Bs & _). pose proof (zlen_nonneg s) as Hs0.
  exists p'. split; [|split; [|split; [exact E2|split; [exact Ls|exact E7]]]].
  - unfold cli_sign, with_package. rewrite (st_open _ _ _ S), E1. reflexivity.
  - assert (Lz : zlen (s ++ zeros (512 - zlen s)) = 512) by (rewrite zlen_app, zlen_zeros; lia).
    set (h' := with_signature (pk_header p) (s ++ zeros (512 - zlen s)) (zlen s)) in *.
    assert (Ef : pk_file p' = fwrite_at (pk_file p) 0 (enc_header h')) by (rewrite <- E2; exact (sign_writes _ _ _ _ _ _ E1)).
    assert (Ep : p' = mkPkg h' (fwrite_at (pk_file p) 0 (enc_header h'))) by (rewrite <- Ef, <- E2; destruct p'; reflexivity).
    rewrite Ep. apply (st_settings sha p w S); try reflexivity.
    + rewrite <- E2. exact E6.
    + unfold settings, h'. cbn [set_sig w_hash w_sign w_key w_keystore w_sig h_hash_kind h_signature_kind h_key_id h_keystore_id h_signature_sz h_signature with_signature].
      split; [exact S1|]. split; [exact S2|]. split; [exact S3|]. split; [exact S4|]. split; [reflexivity|].
      rewrite slice_0, ztake_app_l, ztake_all by lia. reflexivity.
Qed.

(* ---- building ---- *)
Definition tree_id (id : Z) : bool := (id =? ID_MERKLE_SALT) || (id =? ID_MERKLE_ROOT_HASH).
(* commands that only add to a package *)
Definition build_cmd (c : cmd) : bool :=
  match c with
  | CCreate _ _ | CAddPart _ _ _ | CAddMerkle _ _ _ _ | CTransportAdd _ _ _ | CSetIds _ _ | CExtractPart _ | CExtractMeta _ _ | CSignRaw _ => true
  | CAddMeta name _ _ _ => negb (tree_id (bpak_id name))
  | CSetMeta _ _ _ | CDelete _ _ | CDeleteAll _ => false
  end.
Lemma right_grow sha w w' fs ms : trees_right sha w -> w_files w' = w_files w ++ fs -> w_metas w' = w_metas w ++ ms ->
  Forall (fun e => tree_id (e_id e) = false) ms -> trees_right sha w'.
Proof.
  intros [T1 T2] Ef Em N.
  assert (In_old : forall e, In e (w_metas w') -> e_id e = ID_MERKLE_SALT \/ e_id e = ID_MERKLE_ROOT_HASH -> In e (w_metas w)).
  { intros e He Hid. rewrite Em in He. apply in_app_or in He as [He|He]; [exact He|]. rewrite Forall_forall in N. specialize (N e He).
    unfold tree_id in N. apply orb_false_iff in N as [N1 N2]. apply Z.eqb_neq in N1, N2. destruct Hid; contradiction. }
  constructor.
  - intros e He Hid. apply T1; auto.
  - intros e He Hid. destruct (T2 e (In_old e He (or_intror Hid)) Hid) as (name & f & t & salt & ls & A1 & A2 & A3 & A4 & A5 & A6 & A7 & A8).
    exists name, f, t, salt, ls. rewrite Ef, Em. split; [exact A1|]. split; [exact A2|]. split; [apply in_or_app; now left|]. split; [exact A4|].
    split; [apply in_or_app; now left|]. split; [exact A6|]. split; [apply in_or_app; now left|]. exact A8.
Qed.
Lemma right_same sha w w' : trees_right sha w -> w_files w' = w_files w -> w_metas w' = w_metas w -> trees_right sha w'.
Proof. intros T Ef Em. apply (right_grow sha w w' [] []); auto; now rewrite app_nil_r. Qed.
Lemma right_add_meta sha w id ref v w' r : trees_right sha w -> tree_id id = false -> (w', r) = spec_add_meta w id ref v -> trees_right sha w'.
Proof.
  intros T N E. unfold spec_add_meta in E. destruct (existsb _ _); [injection E as -> _; exact T|].
  destruct (1920 <? _); injection E as -> _; [exact T|]. apply (right_grow sha w _ [] [mkEntry id ref v]); auto.
  - now rewrite app_nil_r.
Qed.
Lemma build_keeps sha w c w' out r : good_hash sha -> spec_cmd sha w c w' out r -> fits w c = true -> build_cmd c = true -> trees_right sha w -> trees_right sha w'.
Proof.
  intros G S F B T. destruct c as [h s|name data dh|name data salt dh|name ref src enc|part enc dec|name s enc|key ks|part keep|keep|part|meta ref|sig];
    cbn [spec_cmd build_cmd] in *; try discriminate.
  - destruct S as [_ S]. destruct (hash_named h); [destruct (sign_named s)|]; destruct S as [-> _]; auto. constructor; intros e [].
  - cbn [spec_pkg_op] in S. destruct (existsb _ _).
    { destruct S as [-> _]. now apply (right_same sha w). }
    destruct (32 <=? length (w_files w))%nat; destruct S as [-> _].
    { now apply (right_same sha w). }
    apply (right_grow sha w _ [mkFile (bpak_id name) (flags_of dh) data] []); auto. now rewrite app_nil_r.
  - destruct S as (ls & Hls & _ & _ & ->). cbn [fits] in F. do 14 (apply andb_prop in F as [F ?]).
    repeat match goal with H : (_ && _) = true |- _ => apply andb_prop in H as [? ?] end.
    destruct (is_name_ok name ltac:(assumption)) as [Bn _]. destruct T as [T1 T2].
    assert (Lroot : zlen (root_hash sha salt data ls) = 32).
    { unfold root_hash. destruct (zlen data =? 4096); exact (proj1 (G 1 _ eq_refl)). }
    constructor; cbn [w_files w_metas set_files set_metas].
    + intros e He Hid. apply in_app_or in He as [He|[<-|[<-|[]]]]; [now apply T1| |]; cbn [e_val]; [lia|exact Lroot].
    + intros e He Hid. apply in_app_or in He as [He|[<-|[<-|[]]]].
      * destruct (T2 e He Hid) as (n & f & t & salt' & ls' & A1 & A2 & A3 & A4 & A5 & A6 & A7 & A8).
        exists n, f, t, salt', ls'. split; [exact A1|]. split; [exact A2|]. split; [apply in_or_app; now left|]. split; [exact A4|].
        split; [apply in_or_app; now left|]. split; [exact A6|]. split; [apply in_or_app; now left|]. exact A8.
      * discriminate Hid.
      * exists name, (mkFile (bpak_id name) (flags_of dh) data), (mkFile (bpak_id (name ++ bytes_of "-hash-tree")) (flags_of dh) (hash_tree ls)), salt, ls.
        cbn [e_ref e_val f_id f_data]. split; [reflexivity|]. split; [exact Bn|]. split; [apply in_or_app; right; now left|]. split; [reflexivity|].
        split; [apply in_or_app; right; right; now left|]. split; [reflexivity|]. split; [apply in_or_app; right; now left|].
        split; [lia|]. split; [lia|]. split; [exact Hls|]. split; reflexivity.
  - destruct S as [_ S]. apply negb_true_iff in B. destruct (meta_value src enc); try contradiction.
    + eapply right_add_meta; eauto.
    + destruct S as [-> _]. exact T.
  - destruct S as (_ & stale & _ & S). eapply (right_add_meta sha w ID_BPAK_TRANSPORT); [exact T|reflexivity|exact S].
  - destruct S as [_ S]. destruct key as [k|], ks as [k2|].
    1-3: destruct S as [_ ->]; now apply (right_same sha w).
    destruct S as [-> _]. exact T.
  - destruct S as [-> _]. exact T.
  - destruct S as [-> _]. exact T.
  - destruct S as [_ S]. destruct sig; [destruct S as [_ ->]; now apply (right_same sha w)|destruct S as [-> _]; exact T].
Qed.
Lemma builds_keep sha w cs xs w' : good_hash sha -> spec_cmds sha w cs xs w' -> forallb build_cmd cs = true -> trees_right sha w -> trees_right sha w'.
Proof.
  intros G. induction 1 as [|w c w1 out r cs xs w2 F S _ IH]; intros B T; [exact T|]. cbn [forallb] in B. apply andb_prop in B as [B1 B2].
  apply IH; auto. eapply build_keeps; eauto.
Qed.
Lemma right_new sha hk sk : trees_right sha (mkWorld hk sk 0 0 [] [] []).
Proof. constructor; intros e []. Qed.

(* ---- build, sign, verify ---- *)
Theorem sign_then_verify_cli {K} sha (sg : sigscheme K) pub_of junk1 junk2 f w key s (find_key : Z -> Z -> res K) : good_hash sha -> correct_scheme sg pub_of ->
  stored sha f w ->
  sg_sign sg (sha (w_hash w) (enc_header (unsigned (dec_header (ztake 4096 f))))) (w_hash w) key = Ok s ->
  exists f', cli_sign sha sg junk1 (Ok key) f = (f', None, Ok tt) /\ stored sha f' (set_sig w s) /\
    (trees_right sha w -> find_key (w_keystore w) (w_key w) = Ok (pub_of key) -> cli_verify sha sg junk2 find_key f' = (f', None, Ok tt)).
Proof.
  intros G C S Sg. apply stored_st in S as (p & <- & S).
  assert (Eh : dec_header (ztake 4096 (pk_file p)) = pk_header p).
  { pose proof (st_inv _ _ _ S) as [(es & H & _) _ _ _ _ _]. pose proof (zlen_enc_header _ (ho_wf _ _ H)) as L.
    rewrite (ho_file _ _ H), ztake_app_l, ztake_all by lia. apply dec_enc_header. apply (ho_wf _ _ H). }
  rewrite Eh in Sg. destruct (sign_step sha sg pub_of junk1 junk2 p w key s G C S Sg) as (p' & E & S' & _ & _ & V).
  exists (pk_file p'). split; [exact E|]. split; [apply stored_st; exists p'; auto|].
  intros T Fk. unfold cli_verify, with_package. rewrite (st_open _ _ _ S').
  pose proof (st_set _ _ _ S') as (_ & _ & S3 & S4 & _). cbn [set_sig w_key w_keystore] in S3, S4. rewrite S3, S4, Fk, V.
  rewrite (trees_right_verify sha p w G S T). reflexivity.
Qed.
(* the key comes from a keystore package *)
Theorem keystore_has_key sha parse fk wk v f : good_hash sha -> stored sha fk wk ->
  In (mkEntry ID_KEYSTORE_PROVIDER_ID 0 v) (w_metas wk) -> zlen v = 4 -> In f (w_files wk) -> zlen (f_data f) <= 512 ->
  keystore_load_key sha parse fk (unle v) (f_id f) None =
    match parse (f_data f) with Ok k => Ok (with_id k (f_id f)) | Err e => Err e | UB => UB | Stuck => Stuck end.
Proof.
  intros G S Hv Lv Hf Lf. apply stored_st in S as (p & <- & [I M _]). pose proof I as [(es & H & O & F) P V Hs Ms D].
  destruct (in_matches _ _ _ F Hf) as ([q c] & Hx & M1 & M2 & M3 & M4 & M5). cbn [fst snd] in *.
  apply in_split in Hx as (a & b & ->). unfold file_stored in M1. subst c. rewrite <- M2.
  rewrite Forall_forall in P. specialize (P f Hf).
  destruct (load_stored sha parse p a q (f_data f) _ b (w_metas wk) v None H ltac:(congruence) M4 V (hm_are _ _ M) Hv Lv ltac:(discriminate)) as [A _].
  rewrite (A Lf). destruct (parse (f_data f)); reflexivity.
Qed.
