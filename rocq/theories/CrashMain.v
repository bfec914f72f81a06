(* CrashMain.v -- package files through calls and crashes *)
From Verif Require Import BaseLemmas HeaderModel HeaderSpec HeaderHistory CodecProofs PartProofs MetaProofs CrcModel CrcProofs HashModel MerkleModel
  VerifyModel VerifySpec VerifyProofs VerifySign VerifyWitness PkgModel PkgSpec PkgProofs PkgAdd PkgDelete PkgHistory PkgApi CrashModel CrashSpec CrashProofs CrashDelete.

(* a killed call is no bpak_pkg_delete_part *)
Definition no_delete (o : pkg_op) : Prop := match o with ODel _ _ => False | _ => True end.

(* what adding does, with bytes behind the package *)
Lemma add_case sha p fs name data flags J : good_hash sha -> pkg_inv sha p fs -> pkg_op_ok (OAdd name data flags) ->
  zlen (pk_file p) + pkg_op_cost (OAdd name data flags) <= 2^63 ->
  (fst (fst (spec_pkg_op bpak_id fs (OAdd name data flags))) = fs /\
   add_file_ops sha (with_junk p J) data name flags = [] /\
   pk_file (fst (pkg_add_file sha (with_junk p J) data name flags)) = pk_file p ++ J) \/
  (exists p' ws, pkg_inv sha p' (fst (fst (spec_pkg_op bpak_id fs (OAdd name data flags)))) /\
     zlen (pk_file p') <= zlen (pk_file p) + pkg_op_cost (OAdd name data flags) /\
     pk_file (fst (pkg_add_file sha (with_junk p J) data name flags)) = pk_file p' ++ zdrop (zlen data + padding (zlen data)) J /\
     Forall (behind (zlen (pk_file p))) ws /\
     add_file_ops sha (with_junk p J) data name flags = ws ++ header_ops sha
       (mkPkg (with_parts (pk_header p) (h_parts (pk_header p'))) (fs_replay (pk_file p ++ J) ws))).
Proof.
  intros G I Ok Hb. pose proof (pkg_step sha p fs (OAdd name data flags) G I Ok Hb) as St.
  pose proof I as [(es & H & O & F) P V Hs M D]. cbn [pkg_op_ok pkg_op_cost] in *. destruct Ok as (On & Oid & Of & Ot).
  pose proof (padding_range (zlen data)) as Hp. pose proof (zlen_nonneg data) as Hd. pose proof (zlen_nonneg (pk_file p)) as Hf.
  assert (Pe : plain es) by (eapply plain_of; eauto).
  cbn [run_pkg_op spec_pkg_op] in *. destruct (add_file_fails sha p es data name flags H Oid) as [A1 A2].
  rewrite (ids_of _ _ F) in A1, A2.
  destruct (existsb (fun f => f_id f =? bpak_id name) fs) eqn:Ex.
  - left. split; [reflexivity|]. apply existsb_id in Ex. rewrite <- (ids_of _ _ F) in Ex.
    assert (X : existsb (fun e : parth * bytes => p_id (fst e) =? bpak_id name) es = true).
    { apply existsb_exists. apply in_map_iff in Ex as (x & E & Hx). exists x. split; auto. now apply Z.eqb_eq. }
    unfold add_file_ops, pkg_add_file. cbn [with_junk pk_header pk_file]. rewrite (add_part_holds p es _ H Oid), X. split; reflexivity.
  - assert (Nin : ~ In (bpak_id name) (map f_id fs)) by (intros C; apply existsb_id in C; congruence).
    assert (X : existsb (fun e : parth * bytes => p_id (fst e) =? bpak_id name) es = false).
    { apply not_true_is_false. intros X. apply existsb_exists in X as (x & Hx & E). elim Nin. apply Z.eqb_eq in E.
      rewrite <- E, <- (ids_of _ _ F). now apply (in_map (fun e : parth * bytes => p_id (fst e))). }
    assert (Le : length fs = length es) by (clear - F; induction F; cbn [length]; congruence).
    pose proof (ho_count _ _ H) as Hc. destruct (Nat.leb_spec 32 (length fs)).
    + left. split; [reflexivity|]. unfold add_file_ops, pkg_add_file. cbn [with_junk pk_header pk_file].
      rewrite (add_part_holds p es _ H Oid), X. destruct (Nat.leb_spec 32 (length es)); [|lia]. split; reflexivity.
    + right. destruct (add_file_ok sha p es data name flags) as (p' & E & H' & Sb & D'); auto.
      { now rewrite (ids_of _ _ F). }
      { lia. }
      { lia. }
      rewrite E in St. destruct St as (_ & _ & I' & Lp'). exists p'.
      exists (copy_in_ops (Z.to_nat (zlen data / CHUNK + 1)) (zlen (pk_file p)) data (zlen data) ++
              (if padding (zlen data) =? 0 then [] else [FsData (zlen (pk_file p) + zlen data) (zeros (padding (zlen data)))])).
      split; [exact I'|]. split; [exact Lp'|]. split; [|split].
      * rewrite (add_junk sha p es data name flags J) with (p' := p'); auto; try reflexivity.
        -- now rewrite (ids_of _ _ F).
        -- lia.
        -- lia.
      * apply Forall_app. split; [apply copy_in_behind; lia|]. destruct (padding (zlen data) =? 0); constructor; [|constructor].
        cbn [behind]. lia.
      * unfold add_file_ops. cbn [with_junk pk_header pk_file]. rewrite (append_offset_spec p es H Pe), (add_part_holds p es _ H Oid), X.
        destruct (Nat.leb_spec 32 (length es)); [lia|]. rewrite pad_for_padding by lia. rewrite filled_header by auto.
        rewrite s64_small by lia. destruct (Z.ltb_spec (zlen (pk_file p)) 0); [lia|].
        replace (h_parts (pk_header p')) with
          (map fst es ++ mkPart (bpak_id name) (zlen data) (zlen (pk_file p)) 0 (padding (zlen data)) flags 0 :: repeat zero_part (31 - length es)); [reflexivity|].
        rewrite (ho_table _ _ H'), map_app, app_length. cbn [map fst length]. rewrite <- app_assoc. cbn [app]. unfold new_part. do 3 f_equal. lia.
Qed.

Lemma delete_all_case sha p fs rm J : good_hash sha -> pkg_inv sha p fs ->
  exists p' hb, pkg_inv sha p' [] /\ zlen (pk_file p') = 4096 /\
    call_result sha (with_junk p J) (ODelAll rm) = pk_file p' /\
    delete_all_ops sha (with_junk p J) rm = [FsHeader hb; FsTrunc 4096] /\
    (exists J', fwrite_at (pk_file p ++ J) 0 hb = pk_file p' ++ J').
Proof.
  intros G I. pose proof I as [(es & H & O & F) P V Hs M D]. destruct M as (live & M1 & M2 & M3).
  pose proof (pkg_files_bound _ _ _ I) as Bf. pose proof (zlen_nonneg J) as Hj.
  destruct (delete_all_ok sha (with_junk p J) rm live) as (p' & E & H' & L' & D' & X1 & X2); auto.
  { apply (ho_wf _ _ H). }
  { cbn [with_junk pk_file]. rewrite zlen_app. lia. }
  assert (I' : pkg_inv sha p' []).
  { eapply (inv_build sha (with_junk p J) p' _ []); eauto; try constructor.
    - destruct rm; [destruct (X2 eq_refl) as [X _]|pose proof (X1 eq_refl) as X]; rewrite X; reflexivity.
    - destruct rm; [destruct (X2 eq_refl) as [X _]|pose proof (X1 eq_refl) as X]; rewrite X; reflexivity.
    - destruct rm.
      + destruct (X2 eq_refl) as (_ & X3 & X4). eexists. split; [exact X3|]. split; auto.
        eapply Nat.le_lt_trans; [apply purge_length|exact M2].
      + pose proof (X1 eq_refl) as X. exists live. rewrite X. auto. }
  assert (Ops : exists hb, delete_all_ops sha (with_junk p J) rm = [FsHeader hb; FsTrunc 4096] /\ 4096 <= zlen (fwrite_at (pk_file p ++ J) 0 hb)).
  { pose proof (delete_all_replay sha (with_junk p J) rm) as R. revert E R. unfold delete_all_ops, pkg_delete_all_parts.
    destruct (if rm then _ else _) as [h2|e| |]; try discriminate.
    unfold hash_and_write, header_ops. destruct (pkg_update_hash _ _ _) as [q [a|e| |]]; cbn [snd]; try discriminate.
    intros E R. eexists. split; [reflexivity|]. unfold fwrite_at. cbn [with_junk pk_header pk_file] in *.
    destruct (zlen (enc_header (pk_header q)) =? 0).
    { rewrite zlen_app. lia. }
    destruct (Z.leb_spec 0 (zlen (pk_file p ++ J))); [|pose proof (zlen_nonneg (pk_file p ++ J)); lia].
    unfold splice. rewrite !zlen_app, ztake_0, zlen_zdrop, zlen_app. change (zlen (@nil Z)) with 0.
    pose proof (zlen_nonneg (enc_header (pk_header q))). lia. }
  destruct Ops as (hb & Ops & Lh). exists p', hb.
  pose proof (delete_all_replay sha (with_junk p J) rm) as R. rewrite E in R. cbn [fst snd] in R. specialize (R eq_refl).
  rewrite Ops in R. cbn [fs_replay fold_left fs_apply with_junk pk_file] in R.
  split; [exact I'|]. split; [exact L'|]. split; [cbn [call_result]; rewrite E; reflexivity|]. split; [exact Ops|].
  exists (zdrop 4096 (fwrite_at (pk_file p ++ J) 0 hb)). rewrite <- R. unfold ftruncate. rewrite (zeros_neg (4096 - _)) by lia.
  rewrite app_nil_r. symmetry. apply ztake_zdrop.
Qed.

(* a call that returns *)
Lemma delete_case sha p fs id rm J : good_hash sha -> pkg_inv sha p fs -> id <> 0 -> zlen (pk_file p ++ J) < 2^63 ->
  snd (pkg_delete_part sha (with_junk p J) id rm) = Stuck \/
  pkg_delete_part sha (with_junk p J) id rm = pkg_delete_part sha p id rm \/
  pkg_delete_part sha (with_junk p J) id rm = (with_junk p J, Err E_NOT_FOUND) /\ fst (fst (spec_pkg_op bpak_id fs (ODel id rm))) = fs.
Proof.
  intros G I Ok Bj. pose proof I as [(es & H & O & F) P V Hs M D]. cbn [spec_pkg_op].
  destruct (existsb (fun f => f_id f =? id) fs) eqn:Ex.
  - apply existsb_id in Ex. destruct (first_with_id _ _ Ex) as (fa & f & fb & Ef & Eid & Fa).
    destruct (Forall2_split _ _ _ _ _ _ F Ef) as (a & [q c] & b & -> & F1 & (Fq1 & Fq2 & Fq3) & F2).
    cbn [fst snd] in Fq1, Fq2. rewrite Eid in Fq2. subst id. rewrite <- Fq2.
    assert (M' : rm = true -> exists live, metas_are (h_meta (pk_header p)) (h_metadata (pk_header p)) live /\ (length live < 32)%nat /\
                no_ghost_refs (h_meta (pk_header p))) by (intros _; exact M).
    destruct (Z.eq_dec (zlen (concat (map snd b)) mod 4096) 0) as [Em|Em].
    + right; left. eapply delete_part_junk_gone; eauto.
    + destruct J as [|z J'].
      * right; left. unfold with_junk. rewrite app_nil_r. now destruct p.
      * left. eapply (delete_part_junk_hangs sha p a q c b rm (z :: J')); eauto. discriminate.
  - right; right. split; [|reflexivity].
    assert (Nin : ~ In id (map f_id fs)) by (intros C; apply existsb_id in C; congruence).
    unfold pkg_delete_part. cbn [with_junk pk_header]. rewrite (get_part_none p es id H Ok); [reflexivity|]. now rewrite (ids_of _ _ F).
Qed.
Lemma done_step sha p fs o J : good_hash sha -> pkg_inv sha p fs -> pkg_op_ok o ->
  zlen (pk_file p ++ J) < 2^63 -> call_returns sha (with_junk p J) o ->
  zlen (pk_file p) + pkg_op_cost o <= 2^63 ->
  exists p' J', pkg_inv sha p' (fst (fst (spec_pkg_op bpak_id fs o))) /\
    call_result sha (with_junk p J) o = pk_file p' ++ J' /\ zlen (pk_file p') <= zlen (pk_file p) + pkg_op_cost o.
Proof.
  intros G I Ok Bj Cr Hb. destruct o as [name data flags|id rm|rm|id].
  2:{ destruct (delete_case sha p fs id rm J G I Ok Bj) as [E|[E|E]].
      - elim (Cr E).
      - cbn [call_result]. rewrite E. pose proof (pkg_step sha p fs (ODel id rm) G I Ok Hb) as St. cbn [run_pkg_op] in St.
        destruct (pkg_delete_part sha p id rm) as [p' y]. destruct (spec_pkg_op bpak_id fs (ODel id rm)) as [[fs' x'] y'].
        destruct St as (_ & _ & I' & L). exists p', []. cbn [fst]. rewrite app_nil_r. auto.
      - cbn [call_result]. destruct E as (E & Sp). rewrite E, Sp. exists p, J. cbn [pkg_op_cost]. split; [exact I|]. split; [reflexivity|lia]. }
  - pose proof (zlen_nonneg data).
    destruct (add_case sha p fs name data flags J G I Ok Hb) as [(Sp & _ & E)|(p' & ws & I' & L & E & _)]; cbn [call_result].
    + exists p, J. rewrite Sp. split; [exact I|]. split; [exact E|]. cbn [pkg_op_cost]. lia.
    + exists p'. eexists. split; [exact I'|]. split; [exact E|exact L].
  - destruct (delete_all_case sha p fs rm J G I) as (p' & hb & I' & L & E & _). exists p', []. cbn [spec_pkg_op fst].
    split; [exact I'|]. split; [rewrite app_nil_r; exact E|]. pose proof (pkg_files_bound _ _ _ I). cbn [pkg_op_cost]. lia.
  - exists p, J. cbn [spec_pkg_op call_result with_junk pk_file pkg_op_cost].
    split; [|split; [reflexivity|lia]]. destruct (find _ fs); exact I.
Qed.
(* a call that is killed *)
Lemma killed_step sha p fs o J g : good_hash sha -> pkg_inv sha p fs -> pkg_op_ok o -> no_delete o ->
  zlen (pk_file p) + pkg_op_cost o <= 2^63 -> crashed false (pk_file p ++ J) (ops_of sha (with_junk p J) o) g ->
  exists p' J', (pkg_inv sha p' fs \/ pkg_inv sha p' (fst (fst (spec_pkg_op bpak_id fs o)))) /\
    g = pk_file p' ++ J' /\ zlen (pk_file p') <= zlen (pk_file p) + pkg_op_cost o.
Proof.
  intros G I Ok Nd Hb C. destruct o as [name data flags|id rm|rm|id]; cbn [no_delete] in Nd; [|contradiction| |]; cbn [ops_of] in C.
  - pose proof (zlen_nonneg data). cbn [pkg_op_cost] in Hb. cbn [pkg_op_cost].
    assert (Old : forall g', ztake (zlen (pk_file p)) g' = ztake (zlen (pk_file p)) (pk_file p ++ J) -> exists J', g' = pk_file p ++ J').
    { intros g' E. exists (zdrop (zlen (pk_file p)) g'). rewrite ztake_app_l in E by lia. rewrite (ztake_all _ (pk_file p)) in E by lia.
      rewrite <- E at 1. symmetry. apply ztake_zdrop. }
    pose proof (zlen_nonneg (pk_file p)) as Lp. pose proof (zlen_nonneg J) as Lj.
    assert (Lpj : zlen (pk_file p) <= zlen (pk_file p ++ J)) by (rewrite zlen_app; lia).
    destruct (add_case sha p fs name data flags J G I Ok Hb) as [(Sp & E & _)|(p' & ws & I' & L & E & B & Eo)].
    + rewrite E in C. apply crashed_nil in C as ->. exists p, J. split; [left; exact I|]. split; [reflexivity|]. cbn [pkg_op_cost] in *; lia.
    + pose proof (add_file_replay sha (with_junk p J) data name flags ltac:(cbn [pkg_op_cost] in *; lia)) as R.
      rewrite E in R. cbn [with_junk pk_file] in R. rewrite Eo in C, R. rewrite replay_app in R.
      destruct (crashed_app _ _ _ _ _ C) as [C1|C2].
      * destruct (crashed_behind false _ Lp _ _ _ C1 B Lpj) as [T _]. destruct (Old g T) as [J' ->].
        exists p, J'. split; [left; exact I|]. split; [reflexivity|cbn [pkg_op_cost] in *; lia].
      * destruct (replay_behind _ Lp _ _ B Lpj) as [T _]. destruct (Old _ T) as [J1 E1].
        unfold header_ops in C2, R. destruct (pkg_update_hash _ _ _) as [q [a|e| |]].
        1:{ apply crashed_header in C2 as [C2|C2]; subst g.
            - exists p, J1. split; [left; exact I|]. split; [exact E1|cbn [pkg_op_cost] in *; lia].
            - exists p'. eexists. split; [right; exact I'|]. split; [exact R|]. exact L. }
        all: apply crashed_nil in C2; subst g; exists p, J1; split; [left; exact I|]; split; [exact E1|cbn [pkg_op_cost] in *; lia].
  - destruct (delete_all_case sha p fs rm J G I) as (p' & hb & I' & L & E & Eo & (J' & E')). cbn [spec_pkg_op fst pkg_op_cost].
    pose proof (pkg_files_bound _ _ _ I) as Bd. rewrite Eo in C.
    destruct (crashed_app false _ [FsHeader hb] [FsTrunc 4096] g C) as [C1|C2].
    + apply crashed_header in C1 as [-> | ->].
      * exists p, J. split; [left; exact I|]. split; [reflexivity|lia].
      * exists p', J'. split; [right; exact I'|]. split; [exact E'|lia].
    + cbn [fs_replay fold_left fs_apply] in C2. rewrite E' in C2. apply crashed_trunc in C2 as [-> | ->].
      * exists p', J'. split; [right; exact I'|]. split; [reflexivity|lia].
      * exists p', []. split; [right; exact I'|]. split; [|lia]. cbn [fs_apply]. unfold ftruncate.
        rewrite ztake_app_l, ztake_all by lia. rewrite zlen_app. pose proof (zlen_nonneg J'). now rewrite zeros_neg by lia.
  - apply crashed_nil in C as ->. exists p, J. split; [left; exact I|]. split; [reflexivity|]. cbn [pkg_op_cost]. lia.
Qed.

Definition event_op (e : event) : pkg_op := match e with Done o => o | Killed o => o end.
Definition event_ok (e : event) : Prop := pkg_op_ok (event_op e) /\ match e with Done _ => True | Killed o => no_delete o end.
Definition events_cost (evs : list event) : Z := fold_right (fun e a => pkg_op_cost (event_op e) + a) 0 evs.
Lemma events_cost_app a b : events_cost (a ++ b) = events_cost a + events_cost b.
Proof. induction a as [|e a IH]; [reflexivity|]. cbn [app]. unfold events_cost in *. cbn [fold_right]. lia. Qed.
Lemma pkg_op_cost_nonneg o : 0 <= pkg_op_cost o.
Proof. destruct o; cbn [pkg_op_cost]; try lia. pose proof (zlen_nonneg data). lia. Qed.

Lemma life_inv sha evs f : good_hash sha -> life sha false evs f -> Forall event_ok evs -> 4096 + events_cost evs <= 2^63 ->
  exists p J fs, may_hold bpak_id evs fs /\ pkg_inv sha p fs /\ f = pk_file p ++ J /\ zlen (pk_file p) <= 4096 + events_cost evs.
Proof.
  intros G Li. induction Li as [p Op|evs f p o Li IH Op Bf Cr|evs f p o g Li IH Op C]; intros Ok Hb.
  - destruct (open_short sha [] G) as [_ E]; [cbn; lia|]. rewrite E in Op. cbn [snd app] in Op. injection Op as <-.
    eexists. exists [], []. split; [constructor|]. split; [now apply fresh_inv|]. cbn [pk_file]. split; [now rewrite app_nil_r|].
    rewrite zlen_enc_header by now apply fresh_wf. cbn. lia.
  - apply Forall_app in Ok as [Ok1 Ok2]. inversion Ok2 as [|? ? [O1 O2] _]; subst. cbn [event_op] in *.
    rewrite events_cost_app in Hb. unfold events_cost at 2 in Hb. cbn [fold_right event_op] in Hb.
    pose proof (pkg_op_cost_nonneg o) as Hco.
    destruct IH as (p0 & J & fs & Mh & I & -> & L); auto; [lia|].
    pose proof I as [(es & H & _) _ V _ _ _].
    rewrite (open_junk sha true p0 es J H V) in Op. cbn [snd] in Op. injection Op as <-.
    destruct (done_step sha p0 fs o J G I O1 Bf Cr ltac:(lia)) as (p' & J' & I' & E & L').
    exists p', J'. eexists. split; [apply mh_done; exact Mh|]. split; [exact I'|]. split; [exact E|].
    rewrite events_cost_app. unfold events_cost at 2. cbn [fold_right event_op]. lia.
  - apply Forall_app in Ok as [Ok1 Ok2]. inversion Ok2 as [|? ? [O1 O2] _]; subst. cbn [event_op] in *.
    rewrite events_cost_app in Hb. unfold events_cost at 2 in Hb. cbn [fold_right event_op] in Hb.
    pose proof (pkg_op_cost_nonneg o) as Hco.
    destruct IH as (p0 & J & fs & Mh & I & -> & L); auto; [lia|].
    pose proof I as [(es & H & _) _ V _ _ _].
    rewrite (open_junk sha true p0 es J H V) in Op. cbn [snd] in Op. injection Op as <-.
    destruct (killed_step sha p0 fs o J g G I O1 O2 ltac:(lia) C) as (p' & J' & [I'|I'] & E & L').
    + exists p', J', fs. split; [apply mh_killed_before; exact Mh|]. split; [exact I'|]. split; [exact E|].
      rewrite events_cost_app. unfold events_cost at 2. cbn [fold_right event_op]. lia.
    + exists p', J'. eexists. split; [apply mh_killed_after; exact Mh|]. split; [exact I'|]. split; [exact E|].
      rewrite events_cost_app. unfold events_cost at 2. cbn [fold_right event_op]. lia.
Qed.

Lemma inv_usable sha p fs J : good_hash sha -> pkg_inv sha p fs -> usable sha (pk_file p ++ J) (with_junk p J) fs.
Proof.
  intros G I. pose proof I as [(es & H & O & F) P V Hs M D]. pose proof (pkg_files_bound _ _ _ I) as Bd.
  assert (Ndf : NoDup (map f_id fs)) by (rewrite <- (ids_of _ _ F); apply (ho_distinct _ _ H)).
  constructor.
  - eapply open_junk; eauto.
  - intros x Hx. apply extract_junk.
    assert (Nz : f_id x <> 0).
    { pose proof (ho_nonzero _ _ H) as N. assert (Hi : In (f_id x) (map f_id fs)) by now apply in_map.
      rewrite <- (ids_of _ _ F) in Hi. apply in_map_iff in Hi as (e & <- & He). rewrite Forall_forall in N. now apply N. }
    pose proof (pkg_step sha p fs (OExtract (f_id x)) G I Nz ltac:(cbn [pkg_op_cost]; lia)) as St.
    cbn [run_pkg_op spec_pkg_op] in St. destruct (in_split x fs Hx) as (a & b & ->).
    rewrite (find_first (f_id x) a x b) in St; auto.
    + destruct (pkg_extract_file p (f_id x)) as [out r]. destruct St as (-> & -> & _). reflexivity.
    + apply Forall_forall. intros y Hy E. rewrite map_app in Ndf. cbn [map] in Ndf. apply NoDup_remove_2 in Ndf.
      elim Ndf. rewrite <- E. apply in_or_app. left. now apply in_map.
  - intros id Nz Nin. apply extract_junk_missing.
    pose proof (pkg_step sha p fs (OExtract id) G I Nz ltac:(cbn [pkg_op_cost]; lia)) as St. cbn [run_pkg_op spec_pkg_op] in St.
    destruct (find (fun f => f_id f =? id) fs) as [y|] eqn:Ef.
    + apply find_some in Ef as [Hy E]. apply Z.eqb_eq in E. elim Nin. rewrite <- E. now apply in_map.
    + destruct (pkg_extract_file p id) as [out r]. destruct St as (-> & -> & _). reflexivity.
  - cbn [with_junk pk_header]. pose proof (holds_table _ _ H) as T. pose proof (ho_file _ _ H) as Fl.
    pose proof (zlen_enc_header _ (ho_wf _ _ H)) as Le.
    assert (Sz : sizes_ok (h_parts (pk_header p))).
    { rewrite T. apply sizes_of; [apply (ho_sizes _ _ H)|exact (wf_parts_app _ _ _ (ho_wf _ _ H) (ho_table _ _ H))|].
      rewrite Fl, zlen_app in Bd. lia. }
    destruct (payload_of_contents (pk_file p ++ J) (enc_header (pk_header p)) es J) as [P1 P2]; auto.
    { rewrite Fl. now rewrite <- app_assoc. }
    { apply (ho_sizes _ _ H). }
    { apply (ho_nonzero _ _ H). }
    rewrite <- T in P1, P2.
    destruct (payload_hash_spec sha (pk_header p) (pk_file p ++ J) 4096 64 Sz ltac:(lia)) as [_ Hh].
    destruct (Hh Hs) as [_ Hh2]. destruct (Hh2 P1) as [_ Hh3]. rewrite Hh3 by apply digest_len_le.
    rewrite P2, D, (files_covered_eq _ _ F). reflexivity.
Qed.

Theorem life_usable sha evs f : good_hash sha -> life sha false evs f -> Forall event_ok evs -> 4096 + events_cost evs <= 2^63 ->
  exists p fs, may_hold bpak_id evs fs /\ usable sha f p fs.
Proof.
  intros G Li Ok Hb. destruct (life_inv sha evs f G Li Ok Hb) as (p & J & fs & Mh & I & -> & _).
  exists (with_junk p J), fs. split; [exact Mh|]. now apply inv_usable.
Qed.
