(* ViewWitness.v -- concrete packages for PropertiesView.v *)
From Coq Require Import Lia String.
From Verif Require Import Base BaseLemmas HeaderModel HeaderSpec HeaderOps CodecProofs PartProofs MetaProofs HeaderWitness CrcModel HashModel
  VerifyModel VerifySpec PkgModel PkgSpec MerkleApi UtilSpec CliSpec ViewModel ViewSpec ViewProofs.
Local Open Scope Z_scope.
Local Open Scope list_scope.

Fixpoint vw_slots (off : Z) (ms : list mentry) : list metah :=
  match ms with
  | [] => []
  | e :: r => mkMeta (e_id e) (zlen (e_val e)) off (e_ref e) [0;0;0;0] :: vw_slots (off + align8 (zlen (e_val e))) r
  end.
Definition vw_values (ms : list mentry) : bytes :=
  let b := concat (map (fun e => e_val e ++ zeros (align8 (zlen (e_val e)) - zlen (e_val e))) ms) in b ++ zeros (1920 - zlen b).
Definition vw_header (ms : list mentry) (es : list (parth * bytes)) : header :=
  with_metadata (with_meta (with_parts init_header (map fst es ++ repeat zero_part (32 - length es)))
    (vw_slots 0 ms ++ repeat zero_meta (32 - length ms))) (vw_values ms).
Definition vw_pkg (ms : list mentry) (es : list (parth * bytes)) : pkg :=
  mkPkg (vw_header ms es) (enc_header (vw_header ms es) ++ concat (map snd es)).
(* a part of [n] bytes [c] *)
Definition vw_part (id off n c : Z) : parth * bytes := (mkPart id n off 0 (padding n) 0 0, repeat c (Z.to_nat n) ++ zeros (padding n)).

Fixpoint vw_layoutb (off : Z) (md : bytes) (ms : list mentry) : bool :=
  match ms with
  | [] => true
  | e :: r => (off + zlen (e_val e) <=? 1920) && bytes_eqb (slice off (zlen (e_val e)) md) (e_val e) && vw_layoutb (off + align8 (zlen (e_val e))) md r
  end.
Definition nodupb {A} (f : A -> A -> bool) : list A -> bool :=
  fix go l := match l with [] => true | x :: r => negb (existsb (f x) r) && go r end.
Definition vw_okb (ms : list mentry) (es : list (parth * bytes)) : bool :=
  (length ms <=? 32)%nat && (length es <=? 32)%nat && vw_layoutb 0 (vw_values ms) ms && (zlen (vw_values ms) =? 1920) &&
  nodupb same_key ms && forallb (fun e => negb (e_id e =? 0)) ms &&
  nodupb same_id es && forallb (fun e => negb (p_id (fst e) =? 0)) es && forallb (fun e => zlen (snd e) =? stored_size (fst e)) es &&
  (4096 + zlen (concat (map snd es)) <? 2^63) && wf_headerb (vw_header ms es) &&
  match valid_header (vw_header ms es) with Ok _ => true | _ => false end.
Lemma vw_layout : forall ms off n, layout off (vw_slots off ms ++ repeat zero_meta n) ms.
Proof.
  induction ms as [|e r IH]; intros off n; cbn [vw_slots app layout].
  - apply Forall_forall. intros m Hm. apply repeat_spec in Hm. now subst m.
  - cbn [m_id m_ref m_size m_offset]. repeat (split; [reflexivity|]). apply IH.
Qed.
Lemma vw_slots_len : forall ms off, length (vw_slots off ms) = length ms.
Proof. induction ms as [|e r IH]; intros off; cbn [vw_slots length]; [reflexivity|]. now rewrite IH. Qed.
Lemma vw_data md : forall ms off, vw_layoutb off md ms = true -> data_ok off md ms.
Proof.
  induction ms as [|e r IH]; intros off H; cbn [vw_layoutb data_ok] in *; [exact I|].
  apply andb_prop in H as [H H3]. apply andb_prop in H as [H1 H2]. apply BaseLemmas.bytes_eqb_eq in H2. split; [lia|]. split; [exact H2|]. now apply IH.
Qed.
Lemma nodupb_map {A B} (f : A -> A -> bool) (g : A -> B) l : (forall x y, g y = g x -> f x y = true) -> nodupb f l = true -> NoDup (map g l).
Proof.
  intros X. induction l as [|x l IH]; intros H; cbn [nodupb map] in *; [constructor|].
  apply andb_prop in H as [H1 H2]. constructor; [|now apply IH]. intros I. apply in_map_iff in I as (y & E & I).
  assert (existsb (f x) l = true) by (apply existsb_exists; exists y; auto). rewrite H in H1. discriminate H1.
Qed.
Lemma forallb_Forall {A} (f : A -> bool) (P : A -> Prop) l : (forall x, f x = true -> P x) -> forallb f l = true -> Forall P l.
Proof. intros X H. rewrite forallb_forall in H. apply Forall_forall. auto. Qed.
Lemma vw_ok ms es : vw_okb ms es = true -> package (vw_pkg ms es) ms es.
Proof.
  unfold package, vw_okb. rewrite !andb_true_iff. intros (((((((((((A1 & A2) & A3) & A4) & A5) & A6) & A7) & A8) & A9) & A10) & A11) & A12).
  destruct (valid_header (vw_header ms es)) as [[]|e| |] eqn:V; try discriminate.
  pose proof (wf_headerb_ok _ A11) as WF.
  unfold vw_pkg. cbn [pk_header]. split; [|split; [exact V|]].
  - constructor; cbn [pk_header pk_file]; auto.
    + lia.
    + apply (forallb_Forall _ _ _ (fun x Hx => proj1 (Z.eqb_neq _ _) (proj1 (negb_true_iff _) Hx)) A8).
    + refine (nodupb_map _ _ _ _ A7). intros x y E. unfold same_id. apply Z.eqb_eq. exact E.
    + apply (forallb_Forall _ _ _ (fun x Hx => proj1 (Z.eqb_eq _ _) Hx) A9).
    + rewrite zlen_app, zlen_enc_header by exact WF. lia.
  - apply metas_are_iff. cbn [vw_header with_metadata with_meta with_parts h_meta h_metadata].
    split; [rewrite app_length, vw_slots_len, repeat_length; lia|]. split; [lia|].
    split; [|split; [|split; [apply vw_layout|now apply vw_data]]].
    + refine (nodupb_map _ _ _ _ A5). intros x y E. unfold e_key in E. injection E as E1 E2. unfold same_key. rewrite E1, E2, !Z.eqb_refl. reflexivity.
    + apply (forallb_Forall _ _ _ (fun x Hx => proj1 (Z.eqb_neq _ _) (proj1 (negb_true_iff _) Hx)) A6).
Qed.

(* package 1 and 2 of the example *)
Definition vw_uuid : mentry := mkEntry ID_BPAK_PACKAGE 0 (map Z.of_nat (seq 1 16)).
Definition vw_version (s : string) : mentry := mkEntry ID_BPAK_VERSION 0 (bytes_of s ++ [0]).
Definition vw_ms1 : list mentry := [vw_uuid; vw_version "1.0"].
Definition vw_ms2 : list mentry := [vw_version "1.1"; vw_uuid; mkEntry ID_KEYSTORE_PROVIDER_ID 0 (le 4 4660)].
Definition vw_es1 : list (parth * bytes) := [vw_part 5 4096 600 1; vw_part 6 5120 512 2; vw_part 7 5632 512 3].
Definition vw_es2 : list (parth * bytes) := [vw_part 5 4096 600 1; vw_part 6 5120 512 9; vw_part 8 5632 512 3].
Lemma vw_ok1 : vw_okb vw_ms1 vw_es1 = true.
Proof. vm_compute. reflexivity. Qed.
Lemma vw_ok2 : vw_okb vw_ms2 vw_es2 = true.
Proof. vm_compute. reflexivity. Qed.
Definition vw_junk : bytes := repeat 7 64.
(* an unknown entry and a salt *)
Definition vw_other (v : bytes) : mentry := mkEntry 99 0 v.
Definition vw_salt : mentry := mkEntry ID_MERKLE_SALT 5 (repeat 1 32).
Ltac vw := apply vw_ok; vm_compute; reflexivity.
(* the same with another hash kind *)
Definition vw_kind (k : Z) (p : pkg) : pkg :=
  mkPkg (with_hash_kind (pk_header p) k) (enc_header (with_hash_kind (pk_header p) k) ++ zdrop 4096 (pk_file p)).
Lemma vw_kind_ok k p ms es : 0 < k < 256 -> package p ms es -> package (vw_kind k p) ms es.
Proof.
  intros K (H & V & M). assert (WF : wf_header (with_hash_kind (pk_header p) k)).
  { pose proof (ho_wf _ _ H) as W. destruct W. constructor; cbn [with_hash_kind h_magic h_pad0 h_meta h_parts h_metadata h_hash_kind h_signature_kind h_alignment
      h_payload_hash h_key_id h_keystore_id h_pad1 h_signature h_signature_sz]; auto. lia. }
  split; [|split].
  - pose proof (ho_file _ _ H) as F. pose proof (zlen_enc_header _ (ho_wf _ _ H)) as Z1. pose proof (zlen_enc_header _ WF) as Z2.
    assert (D : zdrop 4096 (pk_file p) = concat (map snd es)) by (rewrite F, zdrop_app_r by lia; rewrite Z1; apply zdrop_0).
    constructor; unfold vw_kind; cbn [pk_header pk_file]; try rewrite D.
    all: try (apply H). all: try exact WF.
    + reflexivity.
    + pose proof (ho_bound _ _ H) as B. rewrite F in B. rewrite zlen_app in *. lia.
  - unfold valid_header in *. cbn [vw_kind pk_header with_hash_kind h_magic h_parts h_meta h_hash_kind].
    destruct (negb (h_magic _ =? _)); [exact V|]. destruct (negb (valid_parts _)); [exact V|]. destruct (negb (valid_metas _)); [exact V|].
    destruct (Z.eqb_spec k 0); [lia|reflexivity].
  - exact M.
Qed.
