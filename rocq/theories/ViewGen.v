(* ViewGen.v -- src/generate.c *)
From Coq Require Import Lia String.
From Verif Require Import Base BaseLemmas HeaderModel HeaderSpec CrcModel CodecProofs PartProofs MetaProofs HashModel VerifyModel VerifySpec VerifyProofs
  PkgModel PkgSpec PkgProofs PkgTrees PkgApi UtilSpec KeystoreModel CliModel CliSpec ViewModel ViewSpec ViewProofs ViewShow.
Local Open Scope Z_scope.
Local Open Scope list_scope.

Lemma offsets_at : forall (a : list (parth * bytes)) e b pos, offsets_from pos (a ++ e :: b) -> p_offset (fst e) = pos + zlen (concat (map snd a)).
Proof.
  induction a as [|x a IH]; intros e b pos O; cbn [app offsets_from map concat] in *.
  - change (zlen (@nil Z)) with 0. lia.
  - destruct O as [_ O]. rewrite (IH _ _ _ O), zlen_app. lia.
Qed.
Section Gen.
Variable parse : bytes -> res key.
Variables (p : pkg) (es : list (parth * bytes)).
Hypothesis H : holds p es.
Hypothesis PL : plain es.
Hypothesis OF : offsets_from 4096 es.
Lemma gen_read a e b : es = a ++ e :: b ->
  (s64 (p_offset (fst e)) <? 0) = false /\ fread_at (pk_file p) (p_offset (fst e)) (p_size (fst e)) = part_data e /\ zlen (part_data e) = p_size (fst e).
Proof using All.
  intros E. destruct e as [q c]. cbn [fst]. pose proof OF as O. rewrite E in O. apply offsets_at in O. cbn [fst] in O.
  pose proof H as H'. rewrite E in H'. destruct (part_bytes p a q c b H') as (S1 & O1 & O2 & S2).
  pose proof (part_offset_at p a q c b H') as PO. rewrite <- O in PO. rewrite PO in *.
  destruct (entry_wf p _ (q, c) H' ltac:(apply in_elt)) as (Wq & Sq & Bq). cbn [fst snd] in *.
  pose proof (ho_bound _ _ H) as B. pose proof (zlen_nonneg c) as Zc.
  unfold plain in PL. rewrite Forall_forall in PL. specialize (PL (q, c) ltac:(rewrite E; apply in_elt)). cbn [fst] in PL.
  unfold stored_size in Sq. rewrite PL in Sq. unfold part_data. cbn [fst snd]. rewrite PL.
  assert (0 <= p_size q /\ 0 <= p_pad_bytes q) by (destruct Wq; lia).
  split; [|split].
  - unfold s64. rewrite Z.mod_small by lia. lia.
  - replace (zlen c - p_pad_bytes q) with (p_size q) by lia. unfold fread_at. unfold slice in *.
    transitivity (ztake (p_size q) (ztake (zlen c) (zdrop (p_offset q) (pk_file p)))); [|now rewrite S2]. rewrite ztake_ztake. f_equal. lia.
  - rewrite zlen_ztake. lia.
Qed.
Lemma gen_keys_ok : forall b a, es = a ++ b -> Forall (key_part parse) b -> exists gs,
  gen_keys parse (pk_file p) (map fst b ++ repeat zero_part (32 - length es)) = (gs, Ok tt) /\ Forall2 (key_of parse) b gs.
Proof using All.
  induction b as [|e b IH]; intros a E F.
  - exists []. split; [|constructor]. cbn [map app]. induction (32 - length es)%nat; [reflexivity|]. cbn [repeat gen_keys]. exact IHn.
  - inversion F as [|? ? (k & K1 & K2 & K3) F2]; subst x l. destruct (gen_read a e b E) as (R1 & R2 & R3).
    pose proof (ho_nonzero _ _ H) as NZ. rewrite Forall_forall in NZ. specialize (NZ e ltac:(rewrite E; apply in_elt)). cbn beta in NZ.
    cbn [map app gen_keys]. destruct (Z.eqb_spec (p_id (fst e)) 0); [contradiction|]. rewrite R1.
    unfold GEN_BUFFER. destruct (Z.gtb_spec (p_size (fst e)) 4096); [lia|]. cbv zeta. rewrite R2, R3, Z.eqb_refl. cbn [negb]. rewrite K1.
    replace (public_kind (k_kind k)) with true by (unfold public_kind; lia).
    destruct (IH (a ++ [e]) ltac:(now rewrite <- app_assoc) F2) as (gs & -> & G). eexists. split; [reflexivity|]. constructor; [|exact G].
    exists k. cbn [gk_id gk_kind gk_data gk_size]. auto 10.
Qed.
Lemma gen_keys_bad : forall b a e c, es = a ++ b ++ e :: c -> Forall (key_part parse) b -> ~ key_part parse e -> (forall d, parse d <> UB /\ parse d <> Stuck) -> exists gs x,
  gen_keys parse (pk_file p) (map fst (b ++ e :: c) ++ repeat zero_part (32 - length es)) = (gs, Err x) /\ Forall2 (key_of parse) b gs.
Proof using All.
  induction b as [|e b IH]; intros a e' c E F NK TP.
  - cbn [app map] in *. destruct (gen_read a e' c E) as (R1 & R2 & R3).
    pose proof (ho_nonzero _ _ H) as NZ. rewrite Forall_forall in NZ. specialize (NZ e' ltac:(rewrite E; apply in_elt)). cbn beta in NZ.
    cbn [gen_keys]. destruct (Z.eqb_spec (p_id (fst e')) 0); [contradiction|]. rewrite R1.
    unfold GEN_BUFFER. destruct (Z.gtb_spec (p_size (fst e')) 4096); [do 2 eexists; split; [reflexivity|constructor]|].
    cbv zeta. rewrite R2, R3, Z.eqb_refl. cbn [negb]. destruct (TP (part_data e')) as [T1 T2].
    destruct (parse (part_data e')) as [k|x| |] eqn:K; try contradiction; [|do 2 eexists; split; [reflexivity|constructor]].
    destruct (public_kind (k_kind k)) eqn:PK; [|do 2 eexists; split; [reflexivity|constructor]].
    elim NK. exists k. unfold public_kind in PK. split; [exact K|]. lia.
  - inversion F as [|? ? (k & K1 & K2 & K3) F2]; subst x l. destruct (gen_read a e (b ++ e' :: c) E) as (R1 & R2 & R3).
    pose proof (ho_nonzero _ _ H) as NZ. rewrite Forall_forall in NZ. specialize (NZ e ltac:(rewrite E; apply in_elt)). cbn beta in NZ.
    cbn [map app gen_keys]. destruct (Z.eqb_spec (p_id (fst e)) 0); [contradiction|]. rewrite R1.
    unfold GEN_BUFFER. destruct (Z.gtb_spec (p_size (fst e)) 4096); [lia|]. cbv zeta. rewrite R2, R3, Z.eqb_refl. cbn [negb]. rewrite K1.
    replace (public_kind (k_kind k)) with true by (unfold public_kind; lia).
    destruct (IH (a ++ [e]) e' c ltac:(now rewrite <- app_assoc) F2 NK TP) as (gs & x & -> & G). do 2 eexists. split; [reflexivity|]. constructor; [|exact G].
    exists k. cbn [gk_id gk_kind gk_data gk_size]. auto 10.
Qed.
End Gen.
Lemma find_sel id ms : find (selects id (Some 0)) ms = find (same_key (mkEntry id 0 [])) ms.
Proof.
  induction ms as [|e ms IH]; [reflexivity|]. cbn [find]. rewrite IH. unfold selects, same_key. cbn [e_id e_ref].
  rewrite (Z.eqb_sym 0). reflexivity.
Qed.
Lemma id_package_nz : id_package <> 0.
Proof. vm_compute. discriminate. Qed.
Lemma id_provider_nz : id_provider <> 0.
Proof. vm_compute. discriminate. Qed.
Lemma generate_head parse p ms es : package p ms es ->
  match find (selects id_package (Some 0)) ms, find (selects id_provider (Some 0)) ms with
  | Some _, Some v => exists i m, nth_error ms i = Some v /\ nth_error (h_meta (pk_header p)) i = Some m /\
      cli_generate parse (pk_file p) =
      match gen_keys parse (pk_file p) (h_parts (pk_header p)) with
      | (ks, Ok _) =>
            match meta_read (pk_header p) i 0 4 with
            | Ok v => (ks, Ok (unle v))
            | Err e => (ks, Err e)
            | UB => (ks, UB)
            | Stuck => (ks, Stuck)
            end
      | (ks, Err e) => (ks, Err e)
      | (ks, UB) => (ks, UB)
      | (ks, Stuck) => (ks, Stuck)
      end
  | _, _ => cli_generate parse (pk_file p) = ([], Err E_NOT_FOUND)
  end.
Proof.
  intros (H & V & M). destruct (read_header p es H) as [R1 R2].
  pose proof (lookup (pk_header p) ms (mkEntry id_package 0 []) id_package_nz M) as A.
  pose proof (lookup (pk_header p) ms (mkEntry id_provider 0 []) id_provider_nz M) as B.
  cbn [e_id e_ref] in A, B. rewrite !find_sel. unfold cli_generate. rewrite R1, R2, Z.eqb_refl. cbn [negb]. cbv zeta. rewrite V. cbn [bind].
  fold id_package id_provider.
  destruct (find (same_key (mkEntry id_package 0 [])) ms) as [e|]; [|rewrite A; reflexivity].
  destruct A as (j & -> & _). cbn [bind].
  destruct (find (same_key (mkEntry id_provider 0 [])) ms) as [v|]; [|rewrite B; reflexivity].
  destruct B as (i & -> & Hi). destruct (live_slot (pk_header p) ms i v M Hi) as (m & Hm & _). exists i, m. auto.
Qed.
Lemma generate_ok parse p ms es v : package p ms es -> plain es -> offsets_from 4096 es -> Forall (key_part parse) es ->
  find (selects id_package (Some 0)) ms <> None -> find (selects id_provider (Some 0)) ms = Some v -> 4 <= zlen (e_val v) ->
  exists gs, cli_generate parse (pk_file p) = (gs, Ok (unle (ztake 4 (e_val v)))) /\ Forall2 (key_of parse) es gs.
Proof.
  intros P PL OF F A B L. pose proof (generate_head parse p ms es P) as G. pose proof P as (H & V & M).
  rewrite B in G. destruct (find (selects id_package (Some 0)) ms) as [e|]; [|now elim A]. destruct G as (i & m & Hi & Hm & ->).
  destruct (gen_keys_ok parse p es H PL OF es [] eq_refl F) as (gs & G & K). rewrite (ho_table _ _ H), G.
  destruct (live_slot (pk_header p) ms i v M Hi) as (m' & Hm' & E1 & E2 & E3 & O & IN & SL). assert (m' = m) by congruence. subst m'.
  destruct (wf_metadata _ (ho_wf _ _ H)) as [ML _]. unfold meta_read. rewrite Hm. unfold METADATA_BYTES. rewrite Z.add_0_r.
  destruct (Z.gtb_spec (m_offset m + 4) 1920); [lia|]. exists gs. split; [|exact K]. do 3 f_equal.
  rewrite <- SL. unfold slice. rewrite ztake_ztake. f_equal. lia.
Qed.
Lemma generate_bad parse p ms es : package p ms es -> plain es -> offsets_from 4096 es -> (forall d, parse d <> UB /\ parse d <> Stuck) ->
  find (selects id_package (Some 0)) ms = None \/ find (selects id_provider (Some 0)) ms = None \/ ~ Forall (key_part parse) es ->
  exists gs x, cli_generate parse (pk_file p) = (gs, Err x).
Proof.
  intros P PL OF TP B. pose proof (generate_head parse p ms es P) as G. pose proof P as (H & V & M).
  destruct (find (selects id_package (Some 0)) ms) as [e|]; [|eauto].
  destruct (find (selects id_provider (Some 0)) ms) as [v|]; [|eauto].
  destruct B as [B|[B|B]]; try discriminate B. destruct G as (i & m & Hi & Hm & ->).
  assert (X : exists b e' c, es = b ++ e' :: c /\ Forall (key_part parse) b /\ ~ key_part parse e').
  { assert (D : forall x, {key_part parse x} + {~ key_part parse x}).
    { intros x. unfold key_part. destruct (parse (part_data x)) as [k|er| |] eqn:K.
      2-4: right; intros (k & C & _); discriminate C.
      destruct (Z_le_dec 1 (k_kind k)) as [H1|H1]; [|right; intros (k' & C & K' & _); injection C as <-; lia].
      destruct (Z_le_dec (k_kind k) 4) as [H2|H2]; [|right; intros (k' & C & K' & _); injection C as <-; lia].
      destruct (Z_le_dec (p_size (fst x)) 4096) as [H3|H3]; [|right; intros (k' & _ & _ & C); contradiction].
      left. exists k. auto. }
    clear - B D. induction es as [|x l IH]; [elim B; constructor|]. destruct (D x) as [Dx|Dx].
    - destruct IH as (b & e' & c & -> & F & N); [intros C; apply B; now constructor|]. exists (x :: b), e', c. split; [reflexivity|]. split; [now constructor|exact N].
    - exists [], x, l. auto. }
  destruct X as (b & e' & c & E & F & N).
  destruct (gen_keys_bad parse p es H PL OF b [] e' c E F N TP) as (gs & x & G & _). rewrite (ho_table _ _ H). rewrite <- E in G. rewrite G. eauto.
Qed.
