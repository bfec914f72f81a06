(* PropertiesPySign.v -- C73 and C74: Package.sign and Package.verify *)
From Verif Require Import Base BaseLemmas HeaderModel HeaderSpec CodecProofs CrcModel HashModel MerkleModel MerkleSpec MerkleApi VerifyModel VerifySpec VerifyProofs VerifySign VerifyWitness
  PkgModel PkgSpec PkgProofs PkgApi PyModel PySpec PyInv PyProofs PySession PyFrozen PyHash PyClaims PySignModel PySignSpec PySignProofs PySignSession PySignClaims PropertiesPy.
Local Open Scope Z_scope.
Local Open Scope list_scope.

(* C73: any number of "with Package(filename, mode)" blocks ('r+' or 'r'), any
   calls in them including sign and verify: every call returns what [spec2]
   says -- in particular verify raises no exception if the last call that was
   not a mere look at the package was a successful sign with the matching key,
   be it in the same or in an earlier block *)
Theorem C73_sessions {K} sha (sg : sigscheme K) pub_of junk f a css :
  good_hash sha -> correct_scheme sg pub_of -> total_scheme sg ->
  package_file f a -> sessions_allowed2 sha sg pub_of (a, None) css ->
  exists f' rss x', py_sessions2 sha sg junk f css = (f', rss) /\ session_specs2 pub_of (a, None) css rss x' /\ package_file f' (fst x').
Proof.
  intros G C T Pf Ok.
  destruct (sessions2_ok sha sg pub_of junk G C T css f (a, None) Pf) as (f' & rss & x' & E & S & P & _).
  - intros k H. discriminate H.
  - exact Ok.
  - exists f', rss, x'. auto.
Qed.
Print Assumptions C73_sessions.

(* the usual course of things: change the package, sign it; later, elsewhere,
   open it in any mode, look at it, verify it *)
Lemma reading_forget (c : pycall) r a a' : reading c = true -> py_spec a c r a' -> forget a' = forget a.
Proof.
  intros R S. destruct c; cbn [reading] in R; try discriminate; cbn [py_spec] in S.
  all: repeat match goal with
    | S : context[match ?t with _ => _ end] |- _ => destruct t eqn:?
    end; unfold a_new, a_news in S; try (destruct S as (? & _ & S)); injection S as ? ?; subst; reflexivity.
Qed.
Lemma plain_allowed {K} sha (sg : sigscheme K) pub_of cs : forall a g rest, py_allowed a cs ->
  (forall rs a1 g1, py_specs a cs rs a1 -> (forallb reading cs = true -> g1 = g) -> allowed2 sha sg pub_of (a1, g1) rest) ->
  allowed2 sha sg pub_of (a, g) (map Plain cs ++ rest).
Proof.
  induction cs as [|c cs IH]; intros a g rest Al H.
  - apply (H [] a g); [constructor|auto].
  - destruct Al as [A1 A2]. cbn [map app allowed2 ok2 fst]. split; [exact A1|]. intros r [a1 g1] [S1 S2].
    apply IH; [exact (A2 r a1 S1)|]. intros rs a2 g2 S3 Hg. apply (H (r :: rs)); [econstructor; eauto|].
    cbn [forallb]. intros E. apply andb_prop in E. destruct E as [E1 E2]. rewrite (Hg E2), S2, E1. reflexivity.
Qed.
Lemma plain_specs {K} (pub_of : K -> K) cs : forall x rest rs x', specs2 pub_of x (map Plain cs ++ rest) rs x' ->
  exists rs1 rs2 a1 g1, rs = rs1 ++ rs2 /\ py_specs (fst x) cs rs1 a1 /\ (forallb reading cs = true -> g1 = snd x) /\ specs2 pub_of (a1, g1) rest rs2 x'.
Proof.
  induction cs as [|c cs IH]; intros [a g] rest rs x' S.
  - exists [], rs, a, g. split; [reflexivity|]. split; [constructor|]. auto.
  - cbn [map app] in S. inversion S as [|? ? r [a1 g1] ? rs' ? S1 S2]; subst. destruct S1 as [S1 Eg].
    destruct (IH _ _ _ _ S2) as (rs1 & rs2 & a2 & g2 & E & T1 & T2 & T3). exists (r :: rs1), rs2, a2, g2.
    split; [now rewrite E|]. split; [econstructor; eauto|]. split; [|exact T3].
    cbn [forallb fst snd] in *. intros Hr. apply andb_prop in Hr. destruct Hr as [H1 H2]. rewrite (T2 H2), Eg, H1. reflexivity.
Qed.
Lemma specs_forget cs : forall a rs a', py_specs a cs rs a' -> forallb reading cs = true -> forget a' = forget a.
Proof.
  induction cs as [|c cs IH]; intros a rs a' S R; inversion S; subst; [reflexivity|].
  cbn [forallb] in R. apply andb_prop in R. destruct R as [R1 R2].
  match goal with S1 : py_specs _ cs _ _, S2 : py_spec _ c _ _ |- _ => rewrite (IH _ _ _ S1 R2); exact (reading_forget _ _ _ _ R1 S2) end.
Qed.
Theorem C73_sign_then_verify {K} sha (sg : sigscheme K) pub_of junk f a cs k w ds :
  good_hash sha -> correct_scheme sg pub_of -> total_scheme sg -> can_sign sg k ->
  package_file f a -> a_kind a <> 0 -> py_allowed (forget a) cs ->
  (forall rs a1, py_specs (forget a) cs rs a1 -> hash_supported (a_kind a1) = true /\ trees_good sha a1 /\
     forall sig, py_allowed (forget (a_set_sig a1 sig)) ds) ->
  forallb reading ds = true ->
  exists f' rs1 rs2 a1 a2 sig, py_sessions2 sha sg junk f
      [(true, map Plain cs ++ [Sign (Some k)]); (w, map Plain ds ++ [Verify (Some (pub_of k))])] =
    (f', [rs1 ++ [Val (VBool true); Val VNone]; rs2 ++ [Val (VBool true); Val VNone]]) /\
    py_specs (forget a) cs rs1 a1 /\ py_specs (forget (a_set_sig a1 sig)) ds rs2 a2 /\ package_file f' (a_set_sig a1 sig).
Proof.
  intros G C T Ca Pf Ka Ac Hc Rd.
  set (css := [(true, map Plain cs ++ [Sign (Some k)]); (w, map Plain ds ++ [Verify (Some (pub_of k))])]).
  assert (Al : sessions_allowed2 sha sg pub_of (a, None) css).
  { cbn [css sessions_allowed2 fst snd]. split; [exact Ka|]. split; [discriminate|]. split.
    - apply plain_allowed; [exact Ac|]. intros rs a1 g1 S _. cbn [allowed2 ok2]. split; [exact Ca|]. intros; exact I.
    - intros rs x1 S. apply plain_specs in S. destruct S as (rs1 & rs2 & a1 & g1 & E & S1 & _ & S2). cbn [fst forget2] in S1.
      destruct (Hc _ _ S1) as (Hs & Tr & Ad). inversion S2 as [|? ? r [a2 g2] ? rs' ? S3 S4]; subst. inversion S4; subst. clear S4 S2.
      cbn [spec2] in S3. rewrite Hs in S3. destruct S3 as (sig & L & -> & -> & ->). cbn [fst snd forget2].
      split; [change (a_kind (a_set_sig a1 sig)) with (a_kind a1); intros E0; rewrite E0 in Hs; discriminate|].
      split.
      { intros _. rewrite forallb_app. cbn [forallb reading2]. rewrite andb_true_r. clear - Rd. induction ds as [|d ds IH]; [reflexivity|].
        cbn [map forallb reading2] in *. apply andb_prop in Rd. destruct Rd as [-> R]. exact (IH R). }
      split; [|intros; exact I]. apply plain_allowed; [exact (Ad sig)|]. intros rs a2 g2 S _. cbn [allowed2 ok2 fst]. split; [|intros; exact I].
      change (trees_good sha (forget a2)). rewrite (specs_forget _ _ _ _ S Rd). exact Tr. }
  destruct (sessions2_ok sha sg pub_of junk G C T css f (a, None) Pf ltac:(intros k0 H0; discriminate H0) Al) as (f' & rss & x' & E & S & P & _).
  unfold css in S. inversion S as [|? ? ? rsa x1 ? ? ? U1 U2]; subst. inversion U2 as [|? ? ? rsb x2 ? ? ? U3 U4]; subst. inversion U4; subst. clear S U2 U4.
  apply plain_specs in U1. destruct U1 as (rs1 & rs2 & a1 & g1 & -> & S1 & _ & S2). cbn [fst forget2] in S1.
  destruct (Hc _ _ S1) as (Hs & Tr & Ad). inversion S2 as [|? ? r [a2 g2] ? rs' ? S3 S4]; subst. inversion S4; subst. clear S4 S2.
  cbn [spec2] in S3. rewrite Hs in S3. destruct S3 as (sig & L & -> & -> & ->).
  apply plain_specs in U3. destruct U3 as (rs3 & rs4 & a3 & g3 & -> & T1 & T2 & T3). cbn [fst snd forget2] in T1, T2. specialize (T2 Rd). subst g3.
  inversion T3 as [|? ? r [a4 g4] ? rs' ? S3 S4]; subst. inversion S4; subst. clear S4 T3. cbn [spec2] in S3.
  destruct S3 as (-> & -> & _ & V). specialize (V k eq_refl eq_refl). subst r.
  exists f', rs1, rs3, a1, a3, sig. rewrite <- !app_assoc in E. cbn [app] in E. split; [exact E|]. split; [exact S1|]. split; [exact T1|].
  cbn [fst] in P. apply (proj2 (forget_file _ _)). apply (proj1 (forget_file _ _)) in P. rewrite (specs_forget _ _ _ _ T1 Rd) in P. exact P.
Qed.
Print Assumptions C73_sign_then_verify.

(* Violated: sign on a package opened in mode 'r' raises an exception, yet a
   verify right after it succeeds, although the file is what it was *)
Theorem C73_readonly_refuted {K} sha (sg : sigscheme K) pub_of junk f a k : good_hash sha -> correct_scheme sg pub_of ->
  package_file f a -> hash_supported (a_kind a) = true -> trees_good sha a -> can_sign sg k ->
  py_sessions2 sha sg junk f [(false, [Sign (Some k); Verify (Some (pub_of k))])] = (f, [[Exc XError; Val (VBool true); Val VNone]]).
Proof. intros G C. exact (readonly_sign sha sg pub_of junk G C f a k). Qed.
Print Assumptions C73_readonly_refuted.
(* Violated: a sign that fails wipes the signature the package has: it is gone
   from the object at once, and from the file with the next assignment *)
Theorem C73_failed_sign_refuted {K} sha (sg : sigscheme K) junk f a k n : good_hash sha ->
  package_file f a -> hash_supported (a_kind a) = true ->
  (forall d kind, exists e, sg_sign sg d kind k = Err e) -> 0 <= n < 2^64 ->
  exists f', py_sessions2 sha sg junk f [(true, [Sign (Some k); Plain KSignature; Plain (KSet KeyId (AInt n))])] =
    (f', [[Exc XError; Val (VBytes (zeros (zlen (a_sig a)))); Val VNone; Val VNone]]) /\
    package_file f' (a_set (a_set_sig a (zeros (zlen (a_sig a)))) KeyId n).
Proof. intros G. exact (failed_sign sha sg junk G f a k n). Qed.
Print Assumptions C73_failed_sign_refuted.

(* the package the program of PropertiesPy.v leaves: add a part to it, sign it,
   read it back, verify it *)
Lemma pw_trees a : (forall e, In e (a_metas a) -> e_id e <> ID_MERKLE_SALT /\ e_id e <> ID_MERKLE_ROOT_HASH) -> trees_good toy_sha a.
Proof. intros H. split; intros e He Hi; destruct (H e He); exfalso; intuition. Qed.
Lemma toy_total : total_scheme toy_sig.
Proof. intros s d k key. left. eexists. reflexivity. Qed.
Lemma toy_can k : can_sign toy_sig k.
Proof. intros d kind _ _. eexists. reflexivity. Qed.
Definition pw_3 : list pycall := [KSet KeyId (AInt 5); KGetMeta 5 pw_id; KRaw 0].
Definition pw_4 : list pycall := [KGet KeyId; KGetPart pw_id; KRead 0; KMetas].
Example C73_instance : exists f f' rs1 rs2 sig, package_file f pw_apkg /\
  py_sessions2 toy_sha toy_sig [] f [(true, map Plain pw_3 ++ [Sign (Some 42)]); (false, map Plain pw_4 ++ [Verify (Some 42)])] =
    (f', [rs1 ++ [Val (VBool true); Val VNone]; rs2 ++ [Val (VBool true); Val VNone]]) /\
  rs1 = [Val VNone; Val (VObj 0); Val (VBytes [9; 0; 0])] /\ rs2 = [Val (VInt 5); Val (VObj 0); Val (VBytes [1; 2; 3]); Val (VObjs [1%nat])] /\
  package_file f' (a_set_sig (mkA 1 2 5 0 [] [mkEntry 5 pw_id [9; 0; 0]] [mkFile pw_id 0 [1; 2; 3]] []) sig).
Proof.
  destruct pw_file as (f & _ & P).
  assert (A3 : py_allowed (forget pw_apkg) pw_3) by (unfold pw_3; pw_go; pw_ok).
  destruct (C73_sign_then_verify toy_sha toy_sig (fun k => k) [] f pw_apkg pw_3 42 false pw_4
    toy_sha_good toy_sig_correct toy_total (toy_can 42) P ltac:(discriminate) A3) as (f' & rs1 & rs2 & a1 & a2 & sig & E & U1 & U2 & P').
  - unfold pw_3. intros rs a1 S. do 3 pw_follow S. inversion S; subst. split; [reflexivity|]. split.
    + apply pw_trees. intros e [<-|[]]. split; discriminate.
    + intros sig. unfold pw_4. pw_go; pw_ok.
  - reflexivity.
  - unfold pw_3 in U1. do 3 pw_follow U1. inversion U1; subst. unfold pw_4 in U2. do 4 pw_follow U2. inversion U2; subst.
    exists f, f', [Val VNone; Val (VObj 0); Val (VBytes [9; 0; 0])], [Val (VInt 5); Val (VObj 0); Val (VBytes [1; 2; 3]); Val (VObjs [1%nat])], sig.
    split; [exact P|]. split; [exact E|]. split; [reflexivity|]. split; [reflexivity|]. apply (proj1 (forget_file _ _)) in P'. exact P'.
Qed.
(* a back end that refuses, and the same package signed by hand *)
Definition no_sig : sigscheme Z := mkSig (fun _ _ _ _ => Ok false) (fun _ _ _ => Err E_NOT_SUPPORTED).
Example C73_refuted_instance : exists f, package_file f pw_apkg /\ hash_supported (a_kind pw_apkg) = true /\ trees_good toy_sha pw_apkg /\
  can_sign toy_sig 42 /\ (forall d kind, exists e, sg_sign no_sig d kind 42 = Err e).
Proof.
  destruct pw_file as (f & _ & P). exists f. split; [exact P|]. split; [reflexivity|]. split.
  - apply pw_trees. intros e [<-|[]]. split; discriminate.
  - split; [apply toy_can|]. intros d kind. eexists. reflexivity.
Qed.

(* C74: what a verified signature says, in terms of what Python reads.  Two
   package files with the same signature bytes, both of which verify with the
   same key: they hold the same package -- attributes, meta data, parts, and the
   data of every part the hash covers -- or a hash collision is at hand *)
Theorem C74_same_signature {K} sha (sg : sigscheme K) junk f1 f2 a1 a2 w1 w2 k : good_hash sha -> binding_scheme sg ->
  package_file f1 a1 -> package_file f2 a2 -> a_kind a1 <> 0 -> a_kind a2 <> 0 -> a_sig a1 = a_sig a2 ->
  snd (py_sessions2 sha sg junk f1 [(w1, [Verify (Some k)])]) = [[Val (VBool true); Val VNone]] ->
  snd (py_sessions2 sha sg junk f2 [(w2, [Verify (Some k)])]) = [[Val (VBool true); Val VNone]] ->
  hash_collision sha \/ same_package a1 a2.
Proof. intros G. exact (same_signature sha sg junk G f1 f2 a1 a2 w1 w2 k). Qed.
Print Assumptions C74_same_signature.
(* parts outside the hash are protected by their hash tree *)
Theorem C74_same_trees {K} sha (sg : sigscheme K) junk f1 f2 a1 a2 w1 w2 k : good_hash sha -> binding_scheme sg ->
  package_file f1 a1 -> package_file f2 a2 -> a_kind a1 <> 0 -> a_kind a2 <> 0 -> a_sig a1 = a_sig a2 -> trees_good sha a1 ->
  snd (py_sessions2 sha sg junk f1 [(w1, [Verify (Some k)])]) = [[Val (VBool true); Val VNone]] ->
  snd (py_sessions2 sha sg junk f2 [(w2, [Verify (Some k)])]) = [[Val (VBool true); Val VNone]] ->
  hash_collision sha \/
  forall i f g, nth_error (a_files a1) i = Some f -> nth_error (a_files a2) i = Some g ->
    (exists e, In e (a_metas a1) /\ e_id e = ID_MERKLE_ROOT_HASH /\ e_ref e = f_id f) -> hash_collision sha \/ f_data f = f_data g.
Proof. intros G. exact (same_trees sha sg junk G f1 f2 a1 a2 w1 w2 k). Qed.
Print Assumptions C74_same_trees.
(* a package signed, and a second file with that package that verifies as well *)
Example C74_instance : exists f1 f2 a, package_file f1 a /\ package_file f2 a /\ a_kind a <> 0 /\ a_files a = [mkFile pw_id 0 [1; 2; 3]] /\
  trees_good toy_sha a /\
  snd (py_sessions2 toy_sha toy_sig [] f1 [(true, [Verify (Some 42)])]) = [[Val (VBool true); Val VNone]] /\
  snd (py_sessions2 toy_sha toy_sig [] f2 [(false, [Verify (Some 42)])]) = [[Val (VBool true); Val VNone]].
Proof.
  destruct pw_file as (f & _ & P).
  destruct (sessions2_ok toy_sha toy_sig (fun k => k) [] toy_sha_good toy_sig_correct toy_total [(true, [Sign (Some 42)])] f (pw_apkg, None) P
    ltac:(intros k0 H0; discriminate H0)) as (f' & rss & [a g] & E & S & P' & Fs).
  { cbn [sessions_allowed2 fst snd]. split; [discriminate|]. split; [discriminate|]. split; [|intros; exact I].
    cbn [allowed2 ok2]. split; [apply toy_can|]. intros; exact I. }
  inversion S as [|? ? ? rsa x1 ? ? ? U1 U2]; subst. inversion U2; subst. clear S U2.
  inversion U1 as [|? ? r [a2 g2] ? rs' ? S3 S4]; subst. inversion S4; subst. clear S4 U1. cbn [forget2 fst snd spec2] in S3.
  change (hash_supported (a_kind (forget pw_apkg))) with true in S3. destruct S3 as (sig & L & -> & -> & ->). cbn [fst snd] in P', Fs.
  set (a := a_set_sig (forget pw_apkg) sig) in *.
  assert (T : trees_good toy_sha a) by (apply pw_trees; intros e [<-|[]]; split; discriminate).
  assert (V : forall w, snd (py_sessions2 toy_sha toy_sig [] f' [(w, [Verify (Some 42)])]) = [[Val (VBool true); Val VNone]]).
  { intros w.
    destruct (sessions2_ok toy_sha toy_sig (fun k => k) [] toy_sha_good toy_sig_correct toy_total [(w, [Verify (Some 42)])] f' (a, Some 42) P' Fs)
      as (f2 & rss & x2 & E2 & S & _).
    { cbn [sessions_allowed2 fst snd]. split; [discriminate|]. split; [reflexivity|]. split; [|intros; exact I].
      cbn [allowed2 ok2 fst forget2]. split; [exact T|]. intros; exact I. }
    rewrite E2. cbn [snd]. inversion S as [|? ? ? rsb x1 ? ? ? U1 U2]; subst. inversion U2; subst. clear S U2.
    inversion U1 as [|? ? r [a2 g2] ? rs' ? S3 S4]; subst. inversion S4; subst. clear S4 U1. cbn [forget2 fst snd spec2] in S3.
    destruct S3 as (_ & _ & _ & V). rewrite (V 42 eq_refl eq_refl). reflexivity. }
  exists f', f', a. split; [exact P'|]. split; [exact P'|]. split; [discriminate|]. split; [reflexivity|]. split; [exact T|]. split; apply V.
Qed.
