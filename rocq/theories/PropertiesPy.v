(* PropertiesPy.v -- C66..C72: the Python extension module *)
From Verif Require Import Base BaseLemmas HeaderModel HeaderSpec CodecProofs PartProofs CrcModel HashModel MerkleModel MerkleApi VerifyModel VerifyProofs VerifySign PkgModel PkgSpec PkgProofs PkgApi
  PyModel PySpec PyInv PyProofs PySession PyFrozen PyHash PyClaims.
Local Open Scope Z_scope.
Local Open Scope list_scope.

(* C66: any number of "with Package(filename, 'r+') as p" blocks, any calls in
   them on the package and on Meta and Part objects (also stale ones), in any
   order: every call returns what [py_spec] says, and the file left behind holds
   the package those calls describe.  [sessions_allowed] (PySpec.v) lists the
   calls left to C67..C71 *)
Theorem C66_sessions sha f a css : good_hash sha -> package_file f a -> sessions_allowed a css ->
  exists f' rss a', py_sessions sha f css = (f', rss) /\ session_specs a css rss a' /\ package_file f' a'.
Proof. intros G. exact (sessions_ok sha G css f a). Qed.
Print Assumptions C66_sessions.
(* starting from an empty file: every package made with Python *)
Theorem C66_from_nothing sha css : good_hash sha -> css <> [] -> sessions_allowed new_apkg css ->
  exists f' rss a', py_sessions sha [] css = (f', rss) /\ session_specs new_apkg css rss a' /\ package_file f' a'.
Proof. exact (sessions_new sha css). Qed.
Print Assumptions C66_from_nothing.

(* a program *)
Definition pw_name : bytes := [102; 115].
Definition pw_id : Z := 4205571239.
Lemma pw_id_eq : bpak_id pw_name = pw_id.
Proof. vm_compute. reflexivity. Qed.
Definition pw_1 : list pycall :=
  [KAddFile pw_name (Some [1; 2; 3]); KAddMeta 5 pw_id (Some (AStr [104; 105])) None; KSet KeyId (AInt (2^32 + 77));
   KObjSize 0; KSetRaw 1 (ABytes [9]); KString 1].
Definition pw_2 : list pycall :=
  [KGet KeyId; KGetPart pw_id; KRead 0; KGetMeta 5 pw_id; KRaw 1; KDelete 0; KParts; KRead 0; KRaw 1; KMetas; KSize].
Ltac pw_go := cbn [py_allowed]; repeat (split; [|
  let r := fresh "r" in let a := fresh "a" in let S := fresh "S" in intros r a S; rewrite ?pw_id_eq in S; cbn in S;
  repeat match goal with
  | S : exists _, _ /\ _ |- _ => let x := fresh "x" in let E := fresh "E" in destruct S as (x & E & S); destruct x; [|discriminate E]
  end; injection S as -> ->]).
Ltac pw_done := solve [discriminate | tauto | now (vm_compute; intuition discriminate) | repeat constructor; now vm_compute | lia ].
Ltac pw_ok := rewrite ?pw_id_eq; cbn -[Z.pow Z.add Z.le Z.lt Z.modulo stored_bytes zlen]; repeat split; intros;
  repeat match goal with
  | H : Some _ = Some _ |- _ => injection H as H; try subst
  | H : inr _ = inr _ |- _ => injection H as H; try subst
  | H : ABytes _ = ABytes _ |- _ => injection H as H; try subst
  | H : AStr _ = AStr _ |- _ => injection H as H; try subst
  end; try pw_done.
Ltac pw_spec S := rewrite ?pw_id_eq in S; cbn in S;
  repeat match goal with
  | S : exists _, _ /\ _ |- _ => let x := fresh "x" in let E := fresh "E" in destruct S as (x & E & S); destruct x; [|discriminate E]
  end; injection S as -> ->.
Ltac pw_follow S := inversion S as [|? ? ? ? ? ? ? S1 S2]; subst; clear S; pw_spec S1; rename S2 into S.
Example pw_allowed : sessions_allowed new_apkg [pw_1; pw_2].
Proof.
  unfold pw_1, pw_2. cbn [sessions_allowed]. split; [discriminate|]. split.
  - pw_go; pw_ok.
    + cbn in H. injection H as <- <-. lia.
    + cbn in H. injection H as <- <-. lia.
    + cbn in H0. injection H0 as <- <- <-. right. left. reflexivity.
  - intros rs a1 S. do 6 pw_follow S. inversion S; subst. split; [discriminate|]. split; [|intros; exact I].
    pw_go; pw_ok.
Qed.
Example C66_instance : sessions_allowed new_apkg [pw_1; pw_2] /\
  snd (py_sessions toy_sha [] [pw_1; pw_2]) =
  [[Val (VObj 0); Val (VObj 1); Val VNone; Val (VInt 512); Val VNone; Val (VStr [9]); Val VNone];
   [Val (VInt 77); Val (VObj 0); Val (VBytes [1; 2; 3]); Val (VObj 1); Val (VBytes [9; 0; 0]); Val VNone;
    Val (VObjs []); Exc XKey; Exc XKey; Val (VObjs []); Val (VInt 4096); Val VNone]].
Proof. split; [exact pw_allowed|]. vm_compute. reflexivity. Qed.
(* the file this program leaves after its first block *)
Definition pw_apkg : apkg :=
  mkA 1 2 77 0 [] [mkEntry 5 pw_id [9; 0; 0]] [mkFile pw_id 0 [1; 2; 3]] [HPart pw_id; HMeta 5 pw_id].
Example pw_file : exists f, py_sessions toy_sha [] [pw_1] = (f, [[Val (VObj 0); Val (VObj 1); Val VNone; Val (VInt 512); Val VNone; Val (VStr [9]); Val VNone]]) /\
  package_file f pw_apkg.
Proof.
  destruct pw_allowed as (A1 & A2 & _).
  destruct (C66_from_nothing toy_sha [pw_1] toy_sha_good ltac:(discriminate)) as (f & rss & a & E & S & P).
  { cbn [sessions_allowed]. split; [exact A1|]. split; [exact A2|]. intros; exact I. }
  exists f. inversion S as [|? ? ? ? ? ? ? T U]; subst. inversion U; subst. clear S U. unfold pw_1 in T. change (forget new_apkg) with new_apkg in T.
  do 6 pw_follow T. inversion T; subst. split; [|exact P]. rewrite E. reflexivity.
Qed.

(* C67: opening.  A file that exists and is no shorter than a header is not
   changed by opening it, whatever is in it and in whatever mode; it opens
   exactly if its header is valid *)
Theorem C67_open_decided sha w (f : bytes) : 4096 <= zlen f ->
  fst (py_new sha w (Some f)) = Some f /\
  let h := dec_header (ztake 4096 f) in
  ((exists s, snd (py_new sha w (Some f)) = inl s) <->
   h_magic h = 0x42504132 /\ parts_aligned h /\ metas_in_bounds h /\ h_hash_kind h <> 0).
Proof.
  intros L. rewrite (open_cases sha w f L). split; [reflexivity|]. cbn [fst snd]. cbv zeta. rewrite <- (valid_header_iff (dec_header (ztake 4096 f))).
  destruct (valid_header_total (dec_header (ztake 4096 f))) as [V|[e V]]; rewrite V; split; intros H; try reflexivity; try discriminate; try (eexists; reflexivity).
  destruct H as [s H]. discriminate.
Qed.
Print Assumptions C67_open_decided.
Theorem C67_missing_file sha w : py_new sha w None = (None, inr (Exc XError)).
Proof. reflexivity. Qed.
(* an empty file opened for writing becomes an empty package *)
Theorem C67_new_file sha : good_hash sha ->
  exists f s, py_new sha true (Some []) = (Some f, inl s) /\ zlen f = 4096 /\ package_file f new_apkg /\ st_file s = f.
Proof.
  intros G. destruct (new_reopen sha G) as (s & E & _ & Iv). exists (st_file s), s. split; [exact E|]. split; [|split; [exact (file_of_inv _ _ Iv)|reflexivity]].
  destruct (iv_file _ _ Iv) as (x & X1 & X2 & X3). rewrite X3. unfold body. cbn [new_apkg a_files map concat]. rewrite app_nil_r.
  exact (zlen_enc_header _ (hi_wf _ _ (hinv_hash _ _ x (iv_h _ _ Iv) X1 X2))).
Qed.
Print Assumptions C67_new_file.
(* Violated: a file that cannot be opened raises no exception, the stream is
   closed twice (undefined behaviour): an invalid header, or a short file
   opened for reading *)
Theorem C67_bad_file_refuted sha w (f : bytes) : 4096 <= zlen f ->
  ~ (let h := dec_header (ztake 4096 f) in
     h_magic h = 0x42504132 /\ parts_aligned h /\ metas_in_bounds h /\ h_hash_kind h <> 0) ->
  py_new sha w (Some f) = (Some f, inr Crash).
Proof.
  intros L N. cbv zeta in N. rewrite <- valid_header_iff in N. rewrite (open_cases sha w f L).
  destruct (valid_header_total (dec_header (ztake 4096 f))) as [V|[e V]]; [contradiction|]. now rewrite V.
Qed.
Print Assumptions C67_bad_file_refuted.
Theorem C67_short_file_refuted sha (f : bytes) : good_hash sha -> zlen f < 4096 -> py_new sha false (Some f) = (Some f, inr Crash).
Proof. intros G L. destruct (open_short sha f G L) as [E _]. unfold py_new. rewrite E. reflexivity. Qed.
Print Assumptions C67_short_file_refuted.
Example C67_instance : 4096 <= zlen (zeros 5000) /\ py_new toy_sha true (Some (zeros 5000)) = (Some (zeros 5000), inr Crash) /\
  exists f s, 4096 <= zlen f /\ py_new toy_sha false (Some f) = (Some f, inl s).
Proof.
  split; [vm_compute; discriminate|]. split.
  - apply C67_bad_file_refuted; [vm_compute; discriminate|]. cbv zeta. intros (M & _). revert M. vm_compute. discriminate.
  - destruct pw_file as (f & _ & P). destruct (open_package toy_sha f _ false P ltac:(discriminate)) as (s & E & _).
    exists f, s. split; [exact (package_file_len _ _ P)|exact E].
Qed.

(* C68: a package opened read-only: no program, whatever it calls, changes the file *)
Theorem C68_file_untouched sha f f' s : py_new sha false f = (f', inl s) ->
  f' = f /\ forall cs, Some (st_file (fst (py_run sha s cs))) = f.
Proof.
  intros E. destruct (readonly_frozen sha f s f' E) as (g & -> & -> & Ef & Fp). split; [reflexivity|]. intros cs. f_equal.
  pose proof (run_still sha cs s (or_introl Fp)) as [_ S]. rewrite S. exact Ef.
Qed.
Print Assumptions C68_file_untouched.
(* and what it reads is what the package holds *)
Theorem C68_reads sha f a cs : good_hash sha -> package_file f a -> a_kind a <> 0 -> py_allowed (forget a) cs -> forallb reading cs = true ->
  exists s s' rs a', py_new sha false (Some f) = (Some f, inl s) /\ py_run sha s cs = (s', rs) /\ ~ In Crash rs /\ ~ In Hang rs /\
    py_specs (forget a) cs rs a' /\ st_file s' = f.
Proof. exact (readonly_reads sha f a cs). Qed.
Print Assumptions C68_reads.
(* Violated: a refused assignment (IOError) still changes what is read afterwards *)
Theorem C68_assignment_refuted sha f s x n : py_new sha false (Some f) = (Some f, inl s) -> 0 <= n < 2^64 ->
  snd (py_run sha s [KSet x (AInt n); KGet x]) =
    [Exc XIO; Val (VInt (match x with HashKind | SignatureKind => n mod 2^8 | _ => n mod 2^32 end))].
Proof. intros E Hn. destruct (readonly_frozen sha _ s _ E) as (g & _ & _ & _ & Fp). exact (readonly_set sha s x n Fp Hn). Qed.
Print Assumptions C68_assignment_refuted.
(* Violated: add_meta with a str of two or more characters is undefined
   behaviour (its buffer is released twice) where bytes raise IOError *)
Theorem C68_add_meta_refuted sha f a s id ref data : good_hash sha -> package_file f a -> a_kind a <> 0 ->
  py_new sha false (Some f) = (Some f, inl s) ->
  py_ok (forget a) (KAddMeta id ref (Some data) None) -> (exists d, data_arg data = inr d) ->
  meta_split (id mod 2^32) (ref mod 2^32) (a_metas a) = None -> (length (a_metas a) < 32)%nat ->
  snd (py_step sha s (KAddMeta id ref (Some data) None)) = match data with AStr (_ :: _ :: _) => Crash | _ => Exc XIO end.
Proof.
  intros G Pf K E Ok (d & Ed) Ms Ml. destruct (open_both_modes sha f a Pf K) as (s0 & _ & E2 & Iv & _). rewrite E in E2.
  apply (f_equal snd) in E2. cbv beta iota delta [snd] in E2. injection E2 as ->.
  destruct (step_ok sha G s0 (forget a) Iv _ Ok) as (s' & r & a' & Es & _ & _ & Sp & _).
  assert (V : exists v, r = Val v).
  { assert (En : new_meta (Some data) None = inr (d, zlen d)) by (unfold new_meta; rewrite Ed; reflexivity).
    cbn [py_spec] in Sp. rewrite En in Sp. change (a_metas (forget a)) with (a_metas a) in Sp. rewrite Ms in Sp. destruct (Nat.leb_spec 32 (length (a_metas a))); [lia|]. destruct Sp as (rest & _ & Sp).
    injection Sp as -> _. eexists. reflexivity. }
  destruct V as [v ->]. rewrite (readonly_add_meta sha s0 id ref (Some data) None s' v (iv_fp _ _ Iv) Es).
  unfold was_str. destruct data as [n|b|[|c1 [|c2 cs]]| | |]; try reflexivity.
  pose proof (zlen_nonneg cs). rewrite !zlen_cons. destruct (Z.ltb_spec 1 (1 + (1 + zlen cs))); [reflexivity|lia].
Qed.
Print Assumptions C68_add_meta_refuted.
Example C68_instance : exists f s, package_file f pw_apkg /\ py_new toy_sha false (Some f) = (Some f, inl s) /\
  py_allowed (forget pw_apkg) [KGetPart pw_id; KRead 0; KMetas; KRaw 1] /\
  py_ok (forget pw_apkg) (KAddMeta 6 0 (Some (AStr [104; 105])) None).
Proof.
  destruct pw_file as (f & _ & P). destruct (open_package toy_sha f _ false P ltac:(discriminate)) as (s & E & _).
  exists f, s. split; [exact P|]. split; [exact E|]. split.
  - pw_go; pw_ok.
  - pw_ok; (cbn in H; injection H as <- <-; cbn; lia).
Qed.

(* C69: after close() nothing changes the file, whatever is called *)
Theorem C69_file_untouched sha w f f' s cs ds : py_new sha w f = (f', inl s) ->
  st_file (fst (py_run sha s (cs ++ KClose :: ds))) = st_file (fst (py_run sha s cs)).
Proof. exact (close_final sha w f f' s cs ds). Qed.
Print Assumptions C69_file_untouched.
(* reading attributes, listing and closing again work, and see an empty package *)
Theorem C69_reads_nothing sha w f f' s cs s1 rs : py_new sha w f = (f', inl s) -> py_run sha s cs = (s1, rs) -> finished rs = true ->
  forall c r, match c with
    | KGet _ => r = Val (VInt 0) | KClose => r = Val VNone | KSignature => r = Val (VBytes []) | KSize => r = Val (VInt 4096)
    | KParts | KMetas => r = Val (VObjs []) | KDigest => r = Val VNone
    | KGetPart id => id mod 2^32 <> 0 /\ r = Exc XKey | _ => False end ->
  snd (py_run sha s (cs ++ [KClose; c])) = rs ++ [Val VNone; r].
Proof.
  intros N E Fi c r H. rewrite (close_then sha w f f' s cs s1 rs [c] N E Fi). cbn [snd].
  destruct (closed_harmless sha (st_file s1) (st_handles s1)) as (H1 & H2 & H3 & H4 & H5 & H6 & H7 & H8).
  destruct c; try contradiction; cbn [py_run].
  - rewrite H2, H. reflexivity.
  - destruct H as [H ->]. rewrite H8 by exact H. reflexivity.
  - rewrite H7, H. reflexivity.
  - rewrite H1, H. reflexivity.
  - rewrite H3, H. reflexivity.
  - rewrite H4, H. reflexivity.
  - destruct (py_step sha (closed _ _) KParts) as [x y]. cbn [snd] in H5. subst. reflexivity.
  - destruct (py_step sha (closed _ _) KMetas) as [x y]. cbn [snd] in H6. subst. reflexivity.
Qed.
Print Assumptions C69_reads_nothing.
(* Violated: assignments, adding files and adding metadata use the closed
   stream instead of raising an exception *)
Theorem C69_writes_refuted sha w f f' s cs s1 rs : py_new sha w f = (f', inl s) -> py_run sha s cs = (s1, rs) -> finished rs = true ->
  forall c, match c with
    | KSet _ (AInt n) => 0 <= n < 2^64 | KSetSignature (ABytes _) => True
    | KAddFile name (Some _) => bpak_id name <> 0
    | KAddMeta id _ (Some (ABytes b)) None => id mod 2^32 <> 0 /\ zlen b <= 1920 | _ => False end ->
  snd (py_run sha s (cs ++ [KClose; c])) = rs ++ [Val VNone; Crash].
Proof.
  intros N E Fi c H. rewrite (close_then sha w f f' s cs s1 rs [c] N E Fi). cbn [snd].
  destruct (closed_crash sha (st_file s1) (st_handles s1)) as (H1 & H2 & H3 & H4).
  assert (X : snd (py_step sha (closed (st_file s1) (st_handles s1)) c) = Crash).
  { destruct c; try contradiction.
    - destruct data; [|contradiction]. now apply H3.
    - destruct data as [[]|]; try contradiction. destruct size; [contradiction|]. destruct H. now apply H4.
    - destruct v; try contradiction. now apply H1.
    - destruct v; try contradiction. apply H2. }
  cbn [py_run]. destruct (py_step sha (closed _ _) c) as [x y]. cbn [snd] in X. subst. reflexivity.
Qed.
Print Assumptions C69_writes_refuted.
Example C69_instance : exists f f' s s1 rs, py_new toy_sha true f = (f', inl s) /\ py_run toy_sha s pw_1 = (s1, rs) /\ finished rs = true.
Proof.
  destruct (new_reopen toy_sha toy_sha_good) as (s & E & _ & Iv). destruct pw_allowed as (_ & A & _).
  destruct (run_ok toy_sha toy_sha_good pw_1 s new_apkg Iv A) as (s1 & rs & a' & R & C1 & C2 & _).
  exists (Some []), (Some (st_file s)), s, s1, rs. split; [exact E|]. split; [exact R|]. now apply finished_iff.
Qed.

(* C70: what is kept of an int assigned to an attribute, in the object and in the file *)
Theorem C70_int_attributes sha f a x n : good_hash sha -> package_file f a -> a_kind a <> 0 -> 0 <= n < 2^64 ->
  let v := match x with HashKind | SignatureKind => n mod 2^8 | _ => n mod 2^32 end in
  exists f', py_sessions sha f [[KSet x (AInt n); KGet x]] = (f', [[Val VNone; Val (VInt v); Val VNone]]) /\ package_file f' (a_set a x n) /\
    a_get (a_set a x n) x = v /\ forall y, y <> x -> a_get (a_set a x n) y = a_get a y.
Proof.
  intros G Pf K Hn v. destruct (open_package sha f a true Pf K) as (s & En & _ & Fp & _ & _ & Iv). specialize (Iv eq_refl).
  destruct (set_get sha s (forget a) x n Iv Hn) as (s' & E & I').
  pose proof (run_app sha [KSet x (AInt n); KGet x] [KClose] s s' _ E ltac:(intros [C|[C|[]]]; discriminate) ltac:(intros [C|[C|[]]]; discriminate)) as Er.
  exists (st_file s'). cbn [py_sessions]. rewrite En, Er. cbn [py_run]. rewrite close_step by (rewrite (iv_fp _ _ I'); discriminate).
  assert (Ev : a_get (a_set (forget a) x n) x = v) by (destruct x; reflexivity).
  cbn [fst snd app finished forallb andb]. rewrite Ev. change (st_file (closed (st_file s') (st_handles s'))) with (st_file s'). split; [reflexivity|].
  split; [|split; [destruct x; reflexivity|intros y Hy; destruct x, y; try reflexivity; contradiction]].
  pose proof (file_of_inv _ _ I') as P. destruct x; exact P.
Qed.
Print Assumptions C70_int_attributes.
(* Violated: values that do not fit are cut without an exception; hash_kind = 256
   makes a package that cannot be opened any more *)
Theorem C70_overflow_refuted sha f a m : good_hash sha -> package_file f a -> a_kind a <> 0 -> 0 < m < 2^56 ->
  exists f', py_sessions sha f [[KSet HashKind (AInt (256 * m))]; []] = (f', [[Val VNone; Val VNone]; [Crash]]).
Proof.
  intros G Pf K Hm. destruct (open_package sha f a true Pf K) as (s & En & _ & Fp & _ & _ & Iv). specialize (Iv eq_refl).
  destruct (hash_kind_stale sha s (forget a) (256 * m) Iv ltac:(lia)) as (s' & E & P & _).
  assert (F1 : py_fp (st_obj s') = FpOpen true) by (pose proof (step_fp sha s (KSet HashKind (AInt (256 * m))) ltac:(discriminate)) as X; rewrite E in X; cbn [fst] in X; congruence).
  exists (st_file s'). cbn [py_sessions]. rewrite En. cbn [app py_run]. rewrite E. rewrite close_step by (rewrite F1; discriminate).
  cbn [finished forallb andb]. change (st_file (closed (st_file s') (st_handles s'))) with (st_file s').
  rewrite (kind0_crash sha true (st_file s') _ P); [reflexivity|]. cbn [a_set a_kind]. change (2^8) with 256. rewrite Z.mul_comm. apply Z.mod_mul. lia.
Qed.
Print Assumptions C70_overflow_refuted.
(* Violated: "del pkg.key_id" (or id, ref of an object) dereferences NULL *)
Theorem C70_del_refuted sha s : (forall x, snd (py_step sha s (KSet x ADel)) = Crash) /\
  (forall k, nth_error (st_handles s) k <> None -> snd (py_step sha s (KSetId k ADel)) = Crash) /\
  (forall k id ref, nth_error (st_handles s) k = Some (HMeta id ref) -> snd (py_step sha s (KSetRef k ADel)) = Crash).
Proof.
  split; [reflexivity|]. split; intros k; cbn [py_step]; unfold on_any, on_meta.
  - destruct (nth_error _ _); [reflexivity|congruence].
  - intros id ref ->. reflexivity.
Qed.
Print Assumptions C70_del_refuted.
Example C70_instance : exists f, package_file f pw_apkg /\ a_kind pw_apkg <> 0 /\ a_get (a_set pw_apkg KeyId (2^32 + 5)) KeyId = 5.
Proof. destruct pw_file as (f & _ & P). exists f. split; [exact P|]. split; [discriminate|reflexivity]. Qed.

(* C71: metadata that does not fit.  add_meta raises bpak.Error, unless the low
   16 bits of its size fit: then it writes past the metadata block *)
Theorem C71_oversized_refused_partial sha f a id ref (b : bytes) : package_file f a -> a_kind a <> 0 -> id mod 2^32 <> 0 ->
  meta_split (id mod 2^32) (ref mod 2^32) (a_metas a) = None -> (length (a_metas a) < 32)%nat ->
  1920 < meta_end (a_metas a) + zlen b -> zlen b < 2^63 ->
  exists f', py_sessions sha f [[KAddMeta id ref (Some (ABytes b)) None]] =
    (f', if meta_end (a_metas a) + zlen b mod 2^16 <=? 1920 then [[Crash]] else [[Exc XError; Val VNone]]) /\ f' = f.
Proof.
  intros Pf K N Ef Hl Hb Hb2. destruct (open_package sha f a true Pf K) as (s & En & Fe & Fp & _ & Hh & Iv). specialize (Iv eq_refl).
  pose proof (oversize_step sha s (forget a) id ref b Iv N Ef Hl Hb Hb2) as E. change (a_metas (forget a)) with (a_metas a) in E.
  change (2^16) with 65536. exists f. cbn [py_sessions]. rewrite En. cbn [app py_run]. rewrite E.
  destruct (_ <=? 1920).
  - cbn [finished forallb]. rewrite Fe. auto.
  - rewrite close_step by (cbn [with_pkg st_obj py_fp]; rewrite Fp; discriminate). cbn [finished forallb andb].
    change (st_file (closed (st_file (with_pkg s (mkPkg ?h (st_file s)))) _)) with (st_file s). split; [|reflexivity].
    cbn. f_equal. exact Fe.
Qed.
Print Assumptions C71_oversized_refused_partial.
(* Violated: the refused entry stays in the header in memory; the next
   assignment writes it, and the package cannot be opened any more *)
Theorem C71_package_lost_refuted sha f a id ref (b : bytes) n : package_file f a -> a_kind a <> 0 -> id mod 2^32 <> 0 ->
  meta_split (id mod 2^32) (ref mod 2^32) (a_metas a) = None -> (length (a_metas a) < 32)%nat ->
  1920 < meta_end (a_metas a) + zlen b mod 2^16 -> zlen b < 2^63 -> 0 <= n < 2^64 ->
  exists f', py_sessions sha f [[KAddMeta id ref (Some (ABytes b)) None; KSet KeyId (AInt n)]; []] =
    (f', [[Exc XError; Val VNone; Val VNone]; [Crash]]).
Proof. exact (oversize_lost sha f a id ref b n). Qed.
Print Assumptions C71_package_lost_refuted.
Example C71_instance : exists f, package_file f pw_apkg /\ a_kind pw_apkg <> 0 /\ meta_split 6 0 (a_metas pw_apkg) = None /\
  (length (a_metas pw_apkg) < 32)%nat /\ 1920 < meta_end (a_metas pw_apkg) + zlen (zeros 1915) mod 2^16 /\
  1920 < meta_end (a_metas pw_apkg) + zlen (zeros 65540) /\ meta_end (a_metas pw_apkg) + zlen (zeros 65540) mod 2^16 <= 1920.
Proof.
  destruct pw_file as (f & _ & P). exists f. split; [exact P|]. split; [discriminate|]. split; [reflexivity|]. split; [cbn; lia|].
  rewrite !zlen_zeros. change (meta_end (a_metas pw_apkg)) with 8. cbn. lia.
Qed.

(* C72: the payload hash stored in the file covers the files of the package,
   after any number of blocks in which nothing is assigned to hash_kind *)
Theorem C72_hash_current sha f a css : good_hash sha -> package_file f a -> payload_hash_ok sha f a -> sessions_allowed a css ->
  Forall (fun cs => forallb (fun c => negb (sets_hash_kind c)) cs = true) css ->
  exists f' rss a', py_sessions sha f css = (f', rss) /\ session_specs a css rss a' /\ package_file f' a' /\ payload_hash_ok sha f' a'.
Proof. intros G. exact (sessions_hash sha G css f a). Qed.
Print Assumptions C72_hash_current.
(* packages made with Python start that way *)
Theorem C72_new_file sha : good_hash sha ->
  exists f s, py_new sha true (Some []) = (Some f, inl s) /\ package_file f new_apkg /\ payload_hash_ok sha f new_apkg.
Proof.
  intros G. destruct (new_reopen sha G) as (s & E & _ & Iv). exists (st_file s), s. split; [exact E|]. split; [exact (file_of_inv _ _ Iv)|].
  destruct (open_short sha [] G ltac:(reflexivity)) as [_ E2]. cbn [app] in E2. unfold py_new in E. rewrite E2 in E.
  apply (f_equal snd) in E. cbv beta iota delta [snd] in E. injection E as E. subst s.
  change (st_file _) with (enc_header (fresh_header sha)).
  pose proof (fresh_wf sha G) as W. pose proof (zlen_enc_header _ W) as L. unfold payload_hash_ok.
  rewrite ztake_all by lia. rewrite dec_enc_header by exact W. cbn [new_apkg a_kind a_files filter map concat].
  destruct (G 1 [] eq_refl) as [Ls _]. change (digest_len 1) with 32 in *.
  unfold fresh_header, with_digest. cbn [h_payload_hash VerifyModel.with_payload_hash init_header h_hash_kind].
  unfold splice. rewrite ztake_0. cbn [app]. rewrite slice_0, ztake_app_l, ztake_all by (unfold HASH_SHA256; lia). reflexivity.
Qed.
Print Assumptions C72_new_file.
(* adding a file or deleting a part makes it current, whatever was called before
   (hash_kind included) *)
Theorem C72_parts_refresh sha f a s cs c : good_hash sha -> package_file f a -> a_kind a <> 0 -> py_new sha true (Some f) = (Some f, inl s) ->
  py_allowed (forget a) (cs ++ [c]) ->
  exists s1 rs a1, py_run sha s cs = (s1, rs) /\ py_specs (forget a) cs rs a1 /\
    forall s2 v, match c with KAddFile _ _ => True | KDelete k => exists id, nth_error (a_objs a1) k = Some (HPart id) | _ => False end ->
      py_step sha s1 c = (s2, Val v) ->
      exists a2, py_spec a1 c (Val v) a2 /\ package_file (st_file s2) a2 /\ payload_hash_ok sha (st_file s2) a2.
Proof.
  intros G Pf K E Ok. destruct (open_package sha f a true Pf K) as (s0 & E0 & _ & _ & _ & _ & Iv). specialize (Iv eq_refl).
  rewrite E in E0. apply (f_equal snd) in E0. cbv beta iota delta [snd] in E0. injection E0 as ->. clear E.
  destruct (run_ok sha G cs s0 (forget a) Iv (allowed_app1 cs [c] _ Ok)) as (s1 & rs & a1 & R & _ & _ & S & I1).
  exists s1, rs, a1. split; [exact R|]. split; [exact S|]. intros s2 v Hc E. exact (parts_refresh sha s1 a1 c s2 v G I1 (allowed_app2 _ _ _ _ _ Ok S) Hc E).
Qed.
Print Assumptions C72_parts_refresh.
(* Violated: assigning hash_kind leaves the stored hash as it was *)
Theorem C72_hash_kind_stale sha f a n : good_hash sha -> package_file f a -> a_kind a <> 0 -> 0 <= n < 2^64 ->
  exists f', py_sessions sha f [[KSet HashKind (AInt n)]] = (f', [[Val VNone; Val VNone]]) /\ package_file f' (a_set a HashKind n) /\
    h_payload_hash (dec_header (ztake 4096 f')) = h_payload_hash (dec_header (ztake 4096 f)).
Proof.
  intros G Pf K Hn. destruct (open_package sha f a true Pf K) as (s & En & _ & Fp & _ & _ & Iv). specialize (Iv eq_refl).
  destruct (hash_kind_stale sha s (forget a) n Iv ltac:(lia)) as (s' & E & P & Hp).
  assert (F1 : py_fp (st_obj s') = FpOpen true) by (pose proof (step_fp sha s (KSet HashKind (AInt n)) ltac:(discriminate)) as X; rewrite E in X; cbn [fst] in X; congruence).
  exists (st_file s'). cbn [py_sessions]. rewrite En. cbn [app py_run]. rewrite E. rewrite close_step by (rewrite F1; discriminate).
  cbn [finished forallb andb]. change (st_file (closed (st_file s') (st_handles s'))) with (st_file s'). split; [reflexivity|]. split; [exact P|].
  rewrite Hp. rewrite (open_cases sha true f (package_file_len _ _ Pf)) in En. destruct (valid_header _); try discriminate.
  apply (f_equal snd) in En. cbv beta iota delta [snd] in En. injection En as <-. reflexivity.
Qed.
Print Assumptions C72_hash_kind_stale.
Theorem C72_hash_kind_refuted : exists sha f, good_hash sha /\ package_file f new_apkg /\ payload_hash_ok sha f new_apkg /\
  let r := py_sessions sha f [[KSet HashKind (AInt 3)]] in
  snd r = [[Val VNone; Val VNone]] /\ package_file (fst r) (a_set new_apkg HashKind 3) /\ ~ payload_hash_ok sha (fst r) (a_set new_apkg HashKind 3).
Proof.
  destruct (C72_new_file toy_sha toy_sha_good) as (f & s & E & P & H). exists toy_sha, f. split; [exact toy_sha_good|]. split; [exact P|]. split; [exact H|].
  destruct (C72_hash_kind_stale toy_sha f new_apkg 3 toy_sha_good P ltac:(discriminate) ltac:(lia)) as (f' & E' & P' & Hs).
  rewrite E'. cbv zeta. cbn [fst snd]. split; [reflexivity|]. split; [exact P'|]. unfold payload_hash_ok in *. rewrite Hs.
  cbn [new_apkg a_set a_kind a_files filter map concat] in *. change (3 mod 2^8) with 3.
  intros C. apply (f_equal (ztake 32)) in C. rewrite !slice_0 in *. change (digest_len 3) with 64 in C. change (digest_len 1) with 32 in H.
  rewrite ztake_ztake in C. change (Z.min 32 64) with 32 in C. rewrite H in C. revert C. vm_compute. discriminate.
Qed.
Print Assumptions C72_hash_kind_refuted.
Example C72_instance : exists f, package_file f new_apkg /\ payload_hash_ok toy_sha f new_apkg /\ sessions_allowed new_apkg [pw_1; pw_2] /\
  Forall (fun cs => forallb (fun c => negb (sets_hash_kind c)) cs = true) [pw_1; pw_2].
Proof.
  destruct (C72_new_file toy_sha toy_sha_good) as (f & s & E & P & H). exists f. split; [exact P|]. split; [exact H|]. split; [exact pw_allowed|].
  repeat constructor.
Qed.
