(* ArgActs.v -- what the actions do with the options they have read. *)
From Coq Require Import String Permutation.
From Verif Require Import Base BaseLemmas HeaderModel CrcModel HashModel MerkleModel VerifyModel PkgModel UtilModel KeystoreModel MbedModel
  CliModel CliSpec CliArgs BspatchModel LzModel TransportModel TransportCliModel ArgModel ArgSpec ArgProofs.
Local Open Scope Z_scope.

Lemma find_two {A} (p : A -> bool) a b : find p (a ++ b) = match find p a with Some x => Some x | None => find p b end.
Proof. induction a as [|x a IH]; [reflexivity|]. cbn [app find]. now destruct (p x). Qed.
Lemma given_last l c : given (map ev l) c = last_given l c.
Proof.
  unfold last_given. induction l as [|[d v] r IH]; [reflexivity|]. cbn [map given rev ev fst snd]. rewrite IH, find_two.
  match goal with |- context [find ?p (rev r)] => destruct (find p (rev r)) end; [reflexivity|]. cbn [option_map find fst]. now destruct (d =? c).
Qed.
Lemma arg_val l s : arg (map ev l) (ch s) = val l s.
Proof. unfold arg, val. now rewrite given_last. Qed.
Lemma set_has l s : set_p (map ev l) (ch s) = has l s.
Proof. unfold set_p, has. now rewrite given_last. Qed.

Definition cases_of (v : verb) : bytes :=
  bytes_of match v with Create => "vYHS" | Add => "vpmrfseF" | Set_ => "vkimse" | Delete => "vpak" | Extract => "vrpmo" | Sign => "vkf" | Verify => "vkK"
  | Transport => "vaErOoedD" | Show => "vpPmHB" | Compare => "v" | Generate => "vnd" end%string.
Definition bad_of (v : verb) : Z -> option bytes -> bool := match v with Add => bad_flag | _ => no_bad end.
Definition cased (v : verb) (c : Z) : bool := existsb (Z.eqb c) (cases_of v).
Lemma cased_iff v c : c <> ch "h" -> (cased v c = true <-> In c (map snd (longs_of v))).
Proof.
  intros H. unfold cased. rewrite existsb_exists. split.
  - intros (x & I & E). apply Z.eqb_eq in E. subst x.
    assert (A : forallb (fun x => existsb (Z.eqb x) (map snd (longs_of v))) (cases_of v) = true) by (destruct v; vm_compute; reflexivity).
    rewrite forallb_forall in A. specialize (A c I). apply existsb_exists in A as (x & J & E). apply Z.eqb_eq in E. now subst.
  - intros I.
    assert (A : forallb (fun x => (x =? ch "h") || existsb (Z.eqb x) (cases_of v)) (map snd (longs_of v)) = true) by (destruct v; vm_compute; reflexivity).
    rewrite forallb_forall in A. specialize (A c I). apply orb_prop in A as [A|A]; [apply Z.eqb_eq in A; congruence|].
    now apply existsb_exists in A.
Qed.
Lemma usable_walk v x r : usable v x -> walk (cases_of v) (bad_of v) (ev x :: r) = walk (cases_of v) (bad_of v) r.
Proof.
  intros (I & H & F). unfold ev. cbn [walk]. rewrite (proj2 (Z.eqb_neq _ _) H). fold (cased v (fst x)). rewrite (proj2 (cased_iff v _ H) I).
  assert (B : bad_of v (fst x) (snd x) = false); [|now rewrite B].
  destruct v; try reflexivity. cbn [bad_of]. unfold bad_flag. destruct (Z.eqb_spec (fst x) (ch "F")) as [E|E]; [|reflexivity].
  rewrite (F eq_refl E). now rewrite BaseLemmas.bytes_eqb_refl.
Qed.
Lemma usables_walk v l r : Forall (usable v) l -> walk (cases_of v) (bad_of v) (map ev l ++ r) = walk (cases_of v) (bad_of v) r.
Proof. intros F. induction F as [|x l U F IH]; [reflexivity|]. cbn [map app]. now rewrite usable_walk. Qed.
Lemma usable_none v l : Forall (usable v) l -> walk (cases_of v) (bad_of v) (map ev l) = None.
Proof. intros F. pose proof (usables_walk v l [] F) as H. now rewrite app_nil_r in H. Qed.
Lemma unusable_walk v x r : ~ usable v x -> fst x <> ch "h" -> walk (cases_of v) (bad_of v) (ev x :: r) = Some (PNothing, Err (-1)).
Proof.
  intros U H. unfold ev. cbn [walk]. rewrite (proj2 (Z.eqb_neq _ _) H). fold (cased v (fst x)).
  destruct (cased v (fst x)) eqn:C; [|reflexivity]. apply (cased_iff v _ H) in C.
  destruct (bad_of v (fst x) (snd x)) eqn:B; [reflexivity|]. exfalso. apply U. split; [exact C|]. split; [exact H|].
  intros -> E. cbn [bad_of] in B. unfold bad_flag in B. rewrite E in B. change (ch "F" =? ch "F") with true in B. cbn [andb] in B.
  destruct (snd x) as [b|]; [|discriminate]. apply negb_false_iff in B. apply BaseLemmas.bytes_eqb_eq in B. now subst.
Qed.
Lemma help_walk v a r : walk (cases_of v) (bad_of v) (EOpt (ch "h") a :: r) = Some (PUsage, Ok tt).
Proof. reflexivity. Qed.
Lemma bad_walk v l : In EBad l -> walk (cases_of v) (bad_of v) l = Some (PNothing, Err (-1)) \/ walk (cases_of v) (bad_of v) l = Some (PUsage, Ok tt).
Proof.
  induction l as [|x r IH]; [intros []|]. intros [->|I]; [now left|]. cbn [walk]. destruct x as [c a|]; [|now left].
  destruct (c =? ch "h"); [now right|]. destruct (existsb _ _); [|now left]. destruct (bad_of v c a); [now left | exact (IH I)].
Qed.

(* an action reads its options, then goes on *)
Section Acts.
Variables (e : env) (fs : fsys).
Definition act_of (v : verb) : list bytes -> outcome :=
  match v with Create => act_create e fs | Add => act_add e fs | Set_ => act_set fs | Delete => act_delete e fs | Extract => act_extract e fs
  | Sign => act_sign e fs | Verify => act_verify e fs | Transport => act_transport e fs
  | Show => act_show e fs | Compare => act_compare e fs | Generate => act_generate e fs end.
Lemma bpak_act v ws : bpak e fs (verb_name v :: ws) = act_of v ws.
Proof using. destruct v; reflexivity. Qed.
Lemma act_action v : exists k : list oev -> list bytes -> outcome, (forall ws, act_of v ws = action_all (os_of v) (ls_of v) (cases_of v) (bad_of v) fs ws k) /\
  (forall l, k l [] = fail fs (-1)).
Proof using. destruct v; eexists; (split; [intros ws; reflexivity | intros l; reflexivity]). Qed.
Lemma reads v ws l o : spells (syntax_of v) ws l o -> Forall (usable v) l ->
  forall k, (forall ws, act_of v ws = action_all (os_of v) (ls_of v) (cases_of v) (bad_of v) fs ws k) -> bpak e fs (verb_name v :: ws) = k (map ev l) o.
Proof using.
  intros S U k K. rewrite bpak_act, K. unfold action_all. rewrite (proj1 (read_iff v ws l _) S), usable_none by exact U. reflexivity.
Qed.

Lemma stops v ws p r : walk (cases_of v) (bad_of v) (fst (scan (os_of v) (ls_of v) ws)) = Some (p, r) -> bpak e fs (verb_name v :: ws) = (fs, p, Some r).
Proof using.
  intros W. destruct (act_action v) as (k & K & K0). rewrite bpak_act, K. unfold action_all. destruct (scan _ _ ws) as [l o]. cbn [fst] in W. now rewrite W.
Qed.
Lemma refused v ws : (forall l o, ~ spells (syntax_of v) ws l o) ->
  bpak e fs (verb_name v :: ws) = (fs, PNothing, Some (Err (-1))) \/ bpak e fs (verb_name v :: ws) = (fs, PUsage, Some (Ok tt)).
Proof using.
  intros H. destruct (bad_walk v _ (read_bad v ws H)) as [W|W]; [left | right]; exact (stops v ws _ _ W).
Qed.
Lemma helped v ws l1 a l2 o : spells (syntax_of v) ws (l1 ++ (ch "h", a) :: l2) o -> Forall (usable v) l1 ->
  bpak e fs (verb_name v :: ws) = (fs, PUsage, Some (Ok tt)).
Proof using.
  intros S U. apply stops. rewrite (proj1 (read_iff v ws _ _) S). cbn [fst]. rewrite map_app, usables_walk by exact U. reflexivity.
Qed.
Lemma unusable v ws l1 x l2 o : spells (syntax_of v) ws (l1 ++ x :: l2) o -> Forall (usable v) l1 -> ~ usable v x -> fst x <> ch "h" ->
  bpak e fs (verb_name v :: ws) = (fs, PNothing, Some (Err (-1))).
Proof using.
  intros S U X H. apply stops. rewrite (proj1 (read_iff v ws _ _) S). cbn [fst]. rewrite map_app, usables_walk by exact U. now apply unusable_walk.
Qed.
Lemma no_path v ws l : spells (syntax_of v) ws l [] -> Forall (usable v) l -> bpak e fs (verb_name v :: ws) = (fs, PNothing, Some (Err (-1))).
Proof using.
  intros S U. destruct (act_action v) as (k & K & K0). rewrite bpak_act, K. unfold action_all. rewrite (proj1 (read_iff v ws l _) S), usable_none by exact U. apply K0.
Qed.
Lemma same v ws1 ws2 l1 l2 o : spells (syntax_of v) ws1 l1 o -> spells (syntax_of v) ws2 l2 o -> Forall (usable v) l1 -> Forall (usable v) l2 ->
  (forall c, last_given l1 c = last_given l2 c) -> bpak e fs (verb_name v :: ws1) = bpak e fs (verb_name v :: ws2).
Proof using.
  intros S1 S2 U1 U2 E.
  assert (A : forall c, arg (map ev l1) c = arg (map ev l2) c) by (intros c; unfold arg; now rewrite !given_last, E).
  assert (B : forall c, set_p (map ev l1) c = set_p (map ev l2) c) by (intros c; unfold set_p; now rewrite !given_last, E).
  pose proof (reads v ws1 l1 o S1 U1) as R1. pose proof (reads v ws2 l2 o S2 U2) as R2.
  destruct v; (erewrite R1, R2; [|intros ws; reflexivity|intros ws; reflexivity]); cbv beta; rewrite ?A, ?B; reflexivity.
Qed.
End Acts.
