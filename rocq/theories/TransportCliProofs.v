(* TransportCliProofs.v -- bpak transport --encode / --decode *)
From Verif Require Import Base BaseLemmas HeaderModel HeaderSpec CodecProofs PartProofs CrcModel HashModel MerkleModel MerkleSpec VerifyModel
  PkgModel PkgSpec PkgProofs PkgApi BspatchModel BsdiffModel HsModel HsPatchModel LzModel LzSpec TransportModel TransportSpec TransportFile TransportMain TransportRefuse TransportCliModel.
Local Open Scope Z_scope.
Local Open Scope list_scope.

Lemma put_same fs p c : fs_put fs p c p = Some c.
Proof. unfold fs_put. now rewrite bytes_eqb_refl. Qed.
Lemma put_other fs p c x : x <> p -> fs_put fs p c x = fs x.
Proof. intros N. unfold fs_put. now rewrite (proj2 (bytes_eqb_neq x p) N). Qed.
Lemma put_id fs p c x : fs p = Some c -> fs_put fs p c x = fs x.
Proof. intros E. unfold fs_put. destruct (bytes_eqb x p) eqn:B; [|reflexivity]. apply bytes_eqb_eq in B. now subst. Qed.

Lemma open_long sha (f : bytes) : 4096 <= zlen f ->
  pkg_open sha true f = (f, do _ <- valid_header (dec_header (ztake 4096 f)); Ok (mkPkg (dec_header (ztake 4096 f)) f)).
Proof.
  intros L. unfold pkg_open, fread_at. rewrite slice_0. unfold HDR_SIZE. rewrite zlen_ztake.
  destruct (Z.eqb_spec (Z.max 0 (Z.min 4096 (zlen f))) 4096); [reflexivity|lia].
Qed.
Lemma open_rw_long sha fs path f : fs path = Some f -> 4096 <= zlen f -> exists fs1, (forall x, fs1 x = fs x) /\
  open_rw sha fs path = (fs1, do _ <- valid_header (dec_header (ztake 4096 f)); Ok (mkPkg (dec_header (ztake 4096 f)) f)).
Proof.
  intros E L. unfold open_rw. rewrite E, (open_long sha f L). exists (fs_put fs path f). split; [|reflexivity]. intros x. now apply put_id.
Qed.
(* no file is made or changed by opening the inputs, if they are no shorter
   than a header *)
Definition long_enough (fs : fsys) (path : bytes) : Prop := match fs path with Some f => 4096 <= zlen f | None => True end.
Lemma open_rw_still sha fs path fs1 r : long_enough fs path -> open_rw sha fs path = (fs1, r) -> forall x, fs1 x = fs x.
Proof.
  unfold long_enough. destruct (fs path) as [f|] eqn:E; intros L O.
  - destruct (open_rw_long sha fs path f E L) as (fs2 & H & O2). rewrite O in O2. injection O2 as -> _. exact H.
  - unfold open_rw in O. rewrite E in O. injection O as <- _. reflexivity.
Qed.
Lemma t_open_still sha fs input origin fs1 r : long_enough fs input -> match origin with Some o => long_enough fs o | None => True end ->
  t_open sha fs input origin = (fs1, r) -> forall x, fs1 x = fs x.
Proof.
  intros L1 L2 E. unfold t_open in E. destruct (open_rw sha fs input) as [fs2 r2] eqn:E2. pose proof (open_rw_still _ _ _ _ _ L1 E2) as H2.
  destruct r2 as [p|e| |]; try (injection E as <- _; exact H2). destruct origin as [o|]; [|injection E as <- _; exact H2].
  destruct (open_rw sha fs2 o) as [fs3 r3] eqn:E3.
  assert (L3 : long_enough fs2 o) by (unfold long_enough; rewrite H2; exact L2).
  pose proof (open_rw_still _ _ _ _ _ L3 E3) as H3.
  assert (fs1 = fs3) as -> by (destruct r3; injection E as <- _; reflexivity). intros x. now rewrite H3.
Qed.
Definition fresh_pkg (sha : hashfn) : pkg := mkPkg (fresh_header sha) (enc_header (fresh_header sha)).
Lemma open_new_eq sha fs path : good_hash sha -> open_new sha fs path = (fs_put fs path (pk_file (fresh_pkg sha)), Ok (fresh_pkg sha)).
Proof.
  intros G. unfold open_new. destruct (open_short sha [] G) as [_ E]; [cbn; lia|]. rewrite E. cbn [app]. reflexivity.
Qed.
Lemma fresh_len sha : good_hash sha -> zlen (pk_file (fresh_pkg sha)) = 4096.
Proof. intros G. exact (zlen_enc_header _ (fresh_wf sha G)). Qed.
Lemma t_open_ok sha fs input origin p q : fs input = Some (pk_file p) -> pkg_open sha true (pk_file p) = (pk_file p, Ok p) ->
  match origin, q with Some o, Some q => fs o = Some (pk_file q) /\ pkg_open sha true (pk_file q) = (pk_file q, Ok q) | None, None => True | _, _ => False end ->
  exists fs1, (forall x, fs1 x = fs x) /\ t_open sha fs input origin = (fs1, Ok (p, q)).
Proof.
  intros E1 O1 H. unfold t_open, open_rw at 1. rewrite E1, O1. destruct origin as [o|], q as [q|]; try contradiction.
  - destruct H as [E2 O2]. unfold open_rw. rewrite (put_id _ _ _ _ E1), E2, O2. eexists. split; [|reflexivity].
    intros x. rewrite put_id; [|rewrite put_id; auto]. now apply put_id.
  - eexists. split; [|reflexivity]. intros x. now apply put_id.
Qed.
Definition others (origin : option bytes) (out : bytes) : Prop := match origin with Some o => out <> o | None => True end.
Lemma cli_ok bld sha sais ga fs v input origin out p q f r : good_hash sha ->
  fs input = Some (pk_file p) -> pkg_open sha true (pk_file p) = (pk_file p, Ok p) ->
  match origin, q with Some o, Some q => fs o = Some (pk_file q) /\ pkg_open sha true (pk_file q) = (pk_file q, Ok q) | None, None => True | _, _ => False end ->
  out <> input -> others origin out ->
  t_run bld sha sais ga v p q (fresh_pkg sha) = (f, r) ->
  exists fs', cli_transport bld sha sais ga fs v input origin (Some out) = (fs', Some r) /\ fs' out = Some f /\ forall x, x <> out -> fs' x = fs x.
Proof.
  intros G E1 O1 H N1 N2 R. destruct (t_open_ok sha fs input origin p q E1 O1 H) as (fs1 & H1 & T).
  unfold cli_transport. rewrite T, (open_new_eq sha fs1 out G). rewrite (proj2 (bytes_eqb_neq out input) N1).
  assert (B : match origin with Some x => bytes_eqb out x | None => false end = false).
  { destruct origin; [|reflexivity]. now apply bytes_eqb_neq. }
  rewrite B. cbn [orb]. rewrite R. eexists. split; [reflexivity|]. split; [apply put_same|]. intros x Hx. rewrite !put_other; auto.
Qed.

Section B.
Variable bld : build.
Context (Hlz : b_lzma bld = true -> lz_good (b_lib bld)).
Lemma table_valid sha p es st cs pe : transportable sha p es st -> holds pe cs -> same_besides_table (pk_header p) (pk_header pe) ->
  Forall2 (fun e c => stored_as (st (p_id (fst e))) e c) es cs -> valid_header (pk_header p) = Ok tt -> valid_header (pk_header pe) = Ok tt.
Proof.
  intros T H Sb F V. apply valid_header_iff in V. apply valid_header_iff. destruct V as (V1 & V2 & V3 & V4).
  rewrite Sb. cbn [with_parts h_magic h_hash_kind]. split; [exact V1|]. split; [|split; [exact V3|exact V4]].
  clear V1 V3 V4 Sb.
  pose proof (ho_table _ _ H) as T2. pose proof (ho_table _ _ (tp_holds _ _ _ _ T)) as T1.
  pose proof (ho_nonzero _ _ H) as N2. pose proof (ho_nonzero _ _ (tp_holds _ _ _ _ T)) as N1.
  unfold parts_aligned in *. cbn [with_parts h_parts]. rewrite T2. rewrite T1 in V2. clear T T1 T2 H.
  revert V2. generalize (32 - length es)%nat as n, (32 - length cs)%nat as m. intros n m.
  assert (Z : forall n, until_empty p_id (repeat zero_part n) = []) by (intros [|k]; reflexivity).
  induction F as [|e c es cs S F IH]; cbn [map app].
  - rewrite !Z. auto.
  - inversion N1 as [|? ? A1 A2]; subst. inversion N2 as [|? ? B1 B2]; subst. cbn [until_empty].
    destruct (Z.eqb_spec (p_id (fst e)) 0); [contradiction|]. destruct (Z.eqb_spec (p_id (fst c)) 0); [contradiction|].
    intros V. inversion V as [|? ? V1 V2]; subst. constructor; [|now apply IH].
    destruct (st (p_id (fst e))); cbn [stored_as] in S.
    + now subst c.
    + rewrite S. exact V1.
    + rewrite S. exact V1.
    + rewrite S. exact V1.
    + destruct S as [S _]. rewrite S. exact V1.
Qed.
(* encode, then decode, as two commands *)
Theorem cli_roundtrip sha sais ga fs p es st q eo input origin patch out r1 :
  good_hash sha -> transportable sha p es st -> origin_for q eo p es ->
  valid_header (pk_header p) = Ok tt -> valid_header (pk_header q) = Ok tt ->
  fs input = Some (pk_file p) -> fs origin = Some (pk_file q) ->
  patch <> input -> patch <> origin -> out <> patch -> out <> origin ->
  cli_transport bld sha sais ga fs TEncode input (Some origin) (Some patch) = r1 -> snd r1 = Some (Ok tt) ->
  (forall g, fst r1 patch = Some g -> zlen g < 2^62) ->
  (forall x, x <> patch -> fst r1 x = fs x) /\
  exists fs2, cli_transport bld sha sais ga (fst r1) TDecode patch (Some origin) (Some out) = (fs2, Some (Ok tt)) /\
    fs2 out = Some (pk_file p) /\ (forall x, x <> out -> fs2 x = fst r1 x).
Proof using Hlz.
  intros G T O Vp Vq Ei Eo N1 N2 N3 N4 <- Ok1 Lt.
  pose proof (tp_holds _ _ _ _ T) as Hp. pose proof (og_holds _ _ _ _ O) as Hq.
  pose proof (reopen sha true p es Hp Vp) as Op. pose proof (reopen sha true q eo Hq Vq) as Oq.
  destruct (transport_encode bld sais p (fresh_header sha) (pk_file (fresh_pkg sha)) (Some q)) as [pe r] eqn:E.
  assert (R1 : t_run bld sha sais ga TEncode p (Some q) (fresh_pkg sha) = (pk_file pe, r)).
  { cbn [t_run]. change (pk_header (fresh_pkg sha)) with (fresh_header sha). now rewrite E. }
  destruct (cli_ok bld sha sais ga fs TEncode input (Some origin) patch p (Some q) _ _ G Ei Op (conj Eo Oq) N1 N2 R1) as (fs1 & C1 & P1 & P2).
  rewrite C1 in *. cbn [fst snd] in *. injection Ok1 as ->. split; [exact P2|]. specialize (Lt _ P1).
  destruct (encoded_holds_over bld Hlz sha sais p es st (Some q) (fresh_header sha) (pk_file (fresh_pkg sha)) pe T (ex_intro _ eo O)
    ltac:(rewrite (fresh_len sha G); lia) E Lt) as (cs & Hc & Sb & F).
  pose proof (table_valid _ _ _ _ _ _ T Hc Sb F Vp) as Ve. pose proof (reopen sha true pe cs Hc Ve) as Oe.
  assert (R2 : t_run bld sha sais ga TDecode pe (Some q) (fresh_pkg sha) = (pk_file p, Ok tt)).
  { cbn [t_run]. rewrite (transport_roundtrip bld Hlz sha sais p es st (Some q) _ _ pe _ G T (ex_intro _ eo O) E Lt).
    rewrite fwrite_0, zdrop_all, app_nil_r; [reflexivity|]. rewrite (fresh_len sha G). rewrite (ho_file _ _ Hp), zlen_app, (zlen_enc_header _ (ho_wf _ _ Hp)).
    pose proof (zlen_nonneg (concat (map snd es))). lia. }
  assert (Eo1 : fs1 origin = Some (pk_file q)) by (rewrite P2; auto).
  destruct (cli_ok bld sha sais ga fs1 TDecode patch (Some origin) out pe (Some q) (pk_file p) (Ok tt) G P1 Oe (conj Eo1 Oq) N3 N4 R2) as (fs2 & C2 & Q1 & Q2).
  exists fs2. auto.
Qed.
End B.

(* whatever happens, only the output file changes *)
Theorem cli_frame bld sha sais ga fs v input origin output fs' r :
  long_enough fs input -> match origin with Some o => long_enough fs o | None => True end ->
  cli_transport bld sha sais ga fs v input origin output = (fs', r) ->
  forall x, Some x <> output -> fs' x = fs x.
Proof.
  intros L1 L2 E x Hx. unfold cli_transport in E. destruct (t_open sha fs input origin) as [fs1 r1] eqn:T.
  pose proof (t_open_still sha fs input origin fs1 r1 L1 L2 T x) as H1.
  destruct r1 as [[p q]|e| |]; try (injection E as <- _; exact H1).
  destruct output as [out|]; [|injection E as <- _; exact H1].
  assert (Nx : x <> out) by (intros ->; now apply Hx).
  unfold open_new in E. destruct (pkg_open sha true []) as [f0 r0].
  assert (H2 : fs_put fs1 out f0 x = fs x) by (rewrite put_other; auto).
  destruct r0 as [o|e| |]; try (injection E as <- _; exact H2).
  destruct (bytes_eqb out input || _); [injection E as <- _; exact H2|].
  destruct (t_run bld sha sais ga v p q o) as [f r0]. injection E as <- _. rewrite put_other; auto.
Qed.
(* nothing at all changes if the inputs cannot be opened, or no output is named *)
Theorem cli_refused bld sha sais ga fs v input origin output :
  long_enough fs input -> match origin with Some o => long_enough fs o | None => True end ->
  (~ (exists f, fs input = Some f /\ valid_header (dec_header (ztake 4096 f)) = Ok tt)) \/
  (match origin with Some o => ~ (exists f, fs o = Some f /\ valid_header (dec_header (ztake 4096 f)) = Ok tt) | None => False end) \/ output = None ->
  exists fs' e, cli_transport bld sha sais ga fs v input origin output = (fs', Some (Err e)) /\ forall x, fs' x = fs x.
Proof.
  intros L1 L2 H.
  assert (Op : forall g path, long_enough g path -> (exists g' p, open_rw sha g path = (g', Ok p) /\ (forall x, g' x = g x) /\ exists f, g path = Some f /\ valid_header (dec_header (ztake 4096 f)) = Ok tt) \/
     (exists g' e, open_rw sha g path = (g', Err e) /\ (forall x, g' x = g x) /\ ~ exists f, g path = Some f /\ valid_header (dec_header (ztake 4096 f)) = Ok tt)).
  { intros g path L. unfold long_enough in L. destruct (g path) as [f|] eqn:E.
    - destruct (open_rw_long sha g path f E L) as (g' & Hg & O). destruct (valid_header_total (dec_header (ztake 4096 f))) as [V|[e V]]; rewrite V in O; cbn [bind] in O.
      + left. do 2 eexists. split; [exact O|]. split; [exact Hg|]. exists f. auto.
      + right. do 2 eexists. split; [exact O|]. split; [exact Hg|]. intros (f' & X & Y). injection X as <-. rewrite V in Y. discriminate.
    - right. unfold open_rw. rewrite E. do 2 eexists. split; [reflexivity|]. split; [reflexivity|]. intros (f' & X & _). discriminate. }
  unfold cli_transport, t_open. destruct (Op fs input L1) as [(g1 & p & -> & H1 & F1)|(g1 & e & -> & H1 & _)]; [|exists g1, e; auto].
  destruct origin as [o|].
  - destruct (Op g1 o) as [(g2 & q & -> & H2 & F2)|(g2 & e & -> & H2 & _)].
    + unfold long_enough. rewrite H1. exact L2.
    + destruct H as [H|[H|H]]; [contradiction| |].
      * elim H. rewrite H1 in F2. exact F2.
      * rewrite H. exists g2, (-1). split; [reflexivity|]. intros x. now rewrite H2.
    + exists g2, e. split; [reflexivity|]. intros x. now rewrite H2.
  - destruct H as [H|[[]|H]]; [contradiction|]. rewrite H. exists g1, (-1). auto.
Qed.
