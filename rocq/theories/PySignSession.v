(* PySignSession.v -- sessions that sign and verify *)
From Verif Require Import BaseLemmas HeaderModel HeaderSpec CodecProofs PartProofs MetaProofs CrcModel HashModel MerkleModel
  VerifyModel VerifySpec VerifyProofs VerifySign VerifyWitness PkgModel PkgSpec PkgProofs PkgHistory PkgApi
  ImageProofs PyModel PySpec PyInv PyProofs PySession PyFrozen PyHash PyClaims PySignModel PySignSpec PySignProofs.
Local Open Scope Z_scope.
Local Open Scope list_scope.

Section Sessions.
Context {K : Type} (sha : hashfn) (sg : sigscheme K) (pub_of : K -> K) (junk : bytes).
Context (G : good_hash sha) (C : correct_scheme sg pub_of) (Tot : total_scheme sg).
Notation step2 := (py_step2 sha sg junk).
Notation run2 := (py_run2 sha sg junk).

Lemma run2_app cs ds : forall s s' rs, run2 s cs = (s', rs) -> ~ In Crash rs -> ~ In Hang rs ->
  run2 s (cs ++ ds) = (fst (run2 s' ds), rs ++ snd (run2 s' ds)).
Proof using.
  induction cs as [|c cs IH]; intros s s' rs E N1 N2; cbn [py_run2 app] in *.
  - injection E as <- <-. destruct (run2 s ds); reflexivity.
  - destruct (step2 s c) as [s1 r]. destruct r; try (injection E as <- <-; elim N1; now left); try (injection E as <- <-; elim N2; now left);
      destruct (run2 s1 cs) as [s2 xs] eqn:E1; injection E as <- <-;
      rewrite (IH s1 s2 xs E1 ltac:(intros X; apply N1; now right) ltac:(intros X; apply N2; now right)); reflexivity.
Qed.
(* reading in mode "r" is reading in mode "r+" *)
Lemma read_step2 s c : py_fp (st_obj s) = FpOpen true -> reading2 c = true ->
  step2 (as_mode false s) c = (as_mode false (fst (step2 s c)), snd (step2 s c)) /\ py_fp (st_obj (fst (step2 s c))) = FpOpen true.
Proof using.
  intros F R. destruct c as [c|k|k]; cbn [reading2] in R; try discriminate.
  - now apply read_step.
  - cbn [py_step2]. unfold py_verify. destruct k as [k|]; [|split; [reflexivity|exact F]].
    destruct s as [[fp p] hs]. cbn in F. subst fp. cbn [as_mode st_obj py_pkg st_handles]. unfold call_c. cbn [st_obj py_fp snd fst].
    destruct (pkg_verify sha sg junk p k); split; reflexivity.
Qed.
Lemma read_run2 cs : forall s, py_fp (st_obj s) = FpOpen true -> forallb reading2 cs = true ->
  run2 (as_mode false s) cs = (as_mode false (fst (run2 s cs)), snd (run2 s cs)).
Proof using.
  induction cs as [|c cs IH]; intros s F R; cbn [py_run2 forallb] in *; [reflexivity|]. apply andb_prop in R as [R1 R2].
  destruct (read_step2 s c F R1) as [E F']. rewrite E. destruct (step2 s c) as [s1 r]. cbn [fst snd] in *.
  destruct r; try reflexivity; rewrite (IH s1 F' R2); destruct (run2 s1 cs); reflexivity.
Qed.
Definition file_signed (f : bytes) (a : apkg) (k : K) : Prop :=
  payload_hash_ok sha f a /\ hash_supported (a_kind a) = true /\
  sg_verify sg (a_sig a) (sha (a_kind a) (enc_header (unsigned (dec_header (ztake 4096 f))))) (a_kind a) (pub_of k) = Ok true.
Lemma synced_header s a : py_inv s a -> synced s -> dec_header (ztake 4096 (st_file s)) = st_header s.
Proof using. intros Iv [rest ->]. exact (header_of_enc _ rest (hi_wf _ _ (iv_h _ _ Iv))). Qed.
Lemma inv2_file s x k : inv2 sha sg pub_of s x -> snd x = Some k -> file_signed (st_file s) (fst x) k.
Proof using.
  intros [Iv Sg] Hk. destruct (Sg k Hk) as (Sy & Cu & S & V). split; [now apply disk_of_mem|]. split; [exact S|].
  rewrite (synced_header _ _ Iv Sy). exact V.
Qed.
Lemma open2 f a g : package_file f a -> a_kind a <> 0 -> (forall k, g = Some k -> file_signed f a k) ->
  exists s, py_new sha true (Some f) = (Some f, inl s) /\ py_new sha false (Some f) = (Some f, inl (as_mode false s)) /\
    st_file s = f /\ inv2 sha sg pub_of s (forget a, g).
Proof using.
  intros Pf Ka Sg. destruct (open_both_modes sha f a Pf Ka) as (s & E1 & E2 & Iv & Ef). exists s. split; [exact E1|]. split; [exact E2|]. split; [exact Ef|].
  assert (Eh : st_header s = dec_header (ztake 4096 f) /\ synced s).
  { rewrite (open_cases sha true f (package_file_len _ _ Pf)) in E1. destruct (valid_header _); try discriminate.
    apply (f_equal snd) in E1. cbv beta iota delta [snd] in E1. injection E1 as <-. split; [reflexivity|].
    destruct Pf as (h & es & H & _). pose proof (ho_file _ _ H) as Ff. pose proof (ho_wf _ _ H) as W. cbn [pk_header pk_file] in *.
    exists (concat (map snd es)). unfold st_file, st_header. cbn [st_obj py_pkg pk_file pk_header]. rewrite Ff.
    fold (header_of (enc_header h ++ concat (map snd es))). rewrite (header_of_enc h _ W). reflexivity. }
  destruct Eh as [Eh Sy]. split; [exact Iv|]. cbn [fst snd]. intros k Hk. destruct (Sg k Hk) as (P & S & V).
  split; [exact Sy|]. split; [|split; [exact S|]].
  - unfold current. rewrite Eh. exact P.
  - rewrite Eh. exact V.
Qed.
Lemma close_run s : py_fp (st_obj s) <> FpDangling -> run2 s [Plain KClose] = (closed (st_file s) (st_handles s), [Val VNone]).
Proof using. intros F. cbn [py_run2 py_step2]. rewrite close_step by exact F. reflexivity. Qed.
Lemma finished_close rs : ~ In Crash rs -> ~ In Hang rs -> finished (rs ++ [Val VNone]) = true.
Proof using.
  intros C1 C2. apply finished_iff. split; intros X; apply in_app_or in X as [X|[X|X]]; try contradiction; discriminate.
Qed.
Theorem sessions2_ok css : forall f x, package_file f (fst x) -> (forall k, snd x = Some k -> file_signed f (fst x) k) ->
  sessions_allowed2 sha sg pub_of x css ->
  exists f' rss x', py_sessions2 sha sg junk f css = (f', rss) /\ session_specs2 pub_of x css rss x' /\ package_file f' (fst x') /\
    (forall k, snd x' = Some k -> file_signed f' (fst x') k).
Proof using G C Tot.
  induction css as [|[w cs] css IH]; intros f x Pf Sg Ok.
  - exists f, [], x. split; [reflexivity|]. split; [constructor|auto].
  - destruct Ok as (Ka & Rd & Oc & Or). destruct x as [a g]. cbn [fst snd] in *.
    destruct (open2 f a g Pf Ka Sg) as (s & E1 & E2 & Ef & I0).
    destruct (run2_ok sha sg pub_of junk G C Tot cs s (forget a, g) I0 Oc) as (s1 & rs & x1 & R & C1 & C2 & Sp & I1).
    assert (Run : exists t, py_new sha w (Some f) = (Some f, inl t) /\
      run2 t (cs ++ [Plain KClose]) = (closed (st_file s1) (st_handles s1), rs ++ [Val VNone])).
    { destruct w.
      - exists s. split; [exact E1|]. rewrite (run2_app cs _ s s1 rs R C1 C2), close_run; [reflexivity|]. rewrite (iv_fp _ _ (proj1 I1)). discriminate.
      - exists (as_mode false s). split; [exact E2|].
        pose proof (read_run2 cs s (iv_fp _ _ (proj1 I0)) (Rd eq_refl)) as Er. rewrite R in Er. cbn [fst snd] in Er.
        rewrite (run2_app cs _ _ _ rs Er C1 C2), close_run; [reflexivity|]. discriminate. }
    destruct Run as (t & Et & Er).
    destruct (IH (st_file s1) x1 (file_of_inv _ _ (proj1 I1)) (fun k Hk => inv2_file s1 x1 k I1 Hk) (Or rs x1 Sp)) as (f' & rss & x' & E' & S' & P' & H').
    exists f', ((rs ++ [Val VNone]) :: rss), x'. cbn [py_sessions2]. rewrite Et, Er, (finished_close rs C1 C2).
    change (st_file (closed (st_file s1) (st_handles s1))) with (st_file s1). rewrite E'. split; [reflexivity|]. split; [econstructor; eauto|auto].
Qed.
End Sessions.
