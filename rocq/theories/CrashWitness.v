(* CrashWitness.v -- what does not survive a crash *)
From Verif Require Import BaseLemmas HeaderModel HeaderSpec HeaderHistory CodecProofs PartProofs MetaProofs CrcModel CrcProofs HashModel MerkleModel MerkleApi
  VerifyModel VerifySpec VerifyProofs VerifySign VerifyWitness PkgModel PkgSpec PkgProofs PkgAdd PkgDelete PkgHistory PkgApi PkgWitness
  CrashModel CrashSpec CrashProofs CrashDelete CrashMain.

(* ---- concrete lives ---- *)
Definition cw_a : bytes := [97].
Definition cw_b : bytes := [98].
Definition cw_f0 : bytes := enc_header (fresh_header toy_sha).
Definition cw_p0 : pkg := mkPkg (fresh_header toy_sha) cw_f0.
Lemma cw_new torn : life toy_sha torn [] cw_f0.
Proof.
  apply (life_new toy_sha torn cw_p0). destruct (open_short toy_sha [] toy_sha_good) as [_ E]; [cbn; lia|]. rewrite E. reflexivity.
Qed.
Lemma crashed_all torn f ops : crashed torn f ops (fs_replay f ops).
Proof. revert f. induction ops as [|o ops IH]; intros f; [constructor|]. constructor. apply IH. Qed.
Lemma crashed_prefix torn f a b : crashed torn f (a ++ b) (fs_replay f a).
Proof. revert f. induction a as [|o a IH]; intros f; [constructor|]. cbn [app]. constructor. apply IH. Qed.

Lemma life_add sha torn evs f p name data flags evs' : life sha torn evs f -> snd (pkg_open sha true f) = Ok p ->
  zlen f < 2^63 -> returned (snd (pkg_add_file sha p data name flags)) -> evs' = evs ++ [Done (OAdd name data flags)] -> life sha torn evs' (pk_file (fst (pkg_add_file sha p data name flags))).
Proof. intros L O B C ->. exact (life_done sha torn evs f p (OAdd name data flags) L O B C). Qed.
Lemma life_kill sha torn evs f p o g evs' : life sha torn evs f -> snd (pkg_open sha true f) = Ok p ->
  crashed torn f (ops_of sha p o) g -> evs' = evs ++ [Killed o] -> life sha torn evs' g.
Proof. intros L O C ->. exact (life_killed sha torn evs f p o g L O C). Qed.

Lemma ops_of_add sha p name data flags : ops_of sha p (OAdd name data flags) = add_file_ops sha p data name flags.
Proof. reflexivity. Qed.
Lemma ops_of_del sha p id rm : ops_of sha p (ODel id rm) = delete_part_ops sha p id rm.
Proof. reflexivity. Qed.

(* the header write cut short: the package cannot be opened any more *)
Definition cw_ops1 : list fsop := add_file_ops toy_sha cw_p0 [1;2;3] cw_a 0.
Lemma cw_ops1_eq : cw_ops1 = add_file_ops toy_sha cw_p0 [1;2;3] cw_a 0.
Proof. unfold cw_ops1. reflexivity. Qed.
Definition cw_torn : bytes :=
  match cw_ops1 with
  | [FsData a b; FsData c d; FsHeader h] => fwrite_at (fwrite_at (fwrite_at cw_f0 a b) c d) 0 (ztake 540 h)
  | _ => []
  end.
Lemma torn_header_life : life toy_sha true [Killed (OAdd cw_a [1;2;3] 0)] cw_torn /\
  pkg_open toy_sha false cw_torn = (cw_torn, Err E_BAD_ALIGNMENT).
Proof.
  split; [|vm_compute; reflexivity].
  eapply (life_kill toy_sha true [] cw_f0 cw_p0 (OAdd cw_a [1;2;3] 0)); [apply cw_new|vm_compute; reflexivity| |reflexivity].
  rewrite ops_of_add, <- cw_ops1_eq. unfold cw_torn.
  assert (E : exists a b c d h, cw_ops1 = [FsData a b; FsData c d; FsHeader h]) by (vm_compute; repeat eexists).
  destruct E as (a & b & c & d & h & ->).
  apply cr_next, cr_next. cbn [fs_apply]. rewrite <- (ztake_zdrop 540 h) at 1. apply cr_header. reflexivity.
Qed.

(* a killed delete damages a file that was to be kept *)
Definition cw_one : bytes := repeat 1 (Z.to_nat 512).
Definition cw_big : bytes := repeat 2 (Z.to_nat 512) ++ repeat 3 (Z.to_nat 512).
Definition cw_p1 : pkg := fst (pkg_add_file toy_sha cw_p0 cw_one cw_a 0).
Definition cw_p2 : pkg := fst (pkg_add_file toy_sha cw_p1 cw_big cw_b 0).
Definition cw_dops : list fsop := delete_part_ops toy_sha cw_p2 (bpak_id cw_a) false.
Lemma cw_dops_eq : cw_dops = delete_part_ops toy_sha cw_p2 (bpak_id cw_a) false.
Proof. unfold cw_dops. reflexivity. Qed.
Definition cw_damaged : bytes := match cw_dops with FsData a b :: _ => fwrite_at (pk_file cw_p2) a b | _ => [] end.
Lemma cw_p2_life torn : life toy_sha torn [Done (OAdd cw_a cw_one 0); Done (OAdd cw_b cw_big 0)] (pk_file cw_p2).
Proof.
  unfold cw_p2. apply (life_add toy_sha torn [Done (OAdd cw_a cw_one 0)] (pk_file cw_p1)); [|vm_compute; reflexivity|vm_compute; reflexivity|vm_compute; discriminate|reflexivity].
  unfold cw_p1. apply (life_add toy_sha torn [] cw_f0); [apply cw_new|vm_compute; reflexivity|vm_compute; reflexivity|vm_compute; discriminate|reflexivity].
Qed.
Definition cw_damaged_pkg : pkg := mkPkg (pk_header cw_p2) cw_damaged.
Lemma killed_delete_life :
  life toy_sha false [Done (OAdd cw_a cw_one 0); Done (OAdd cw_b cw_big 0); Killed (ODel (bpak_id cw_a) false)] cw_damaged /\
  pkg_open toy_sha false cw_damaged = (cw_damaged, Ok cw_damaged_pkg) /\
  exists d, pkg_extract_file cw_damaged_pkg (bpak_id cw_b) = (Some d, Ok tt) /\ d <> cw_big.
Proof.
  split; [|split].
  - eapply (life_kill toy_sha false _ (pk_file cw_p2) cw_p2 (ODel (bpak_id cw_a) false));
      [apply cw_p2_life|vm_compute; reflexivity| |reflexivity].
    rewrite ops_of_del, <- cw_dops_eq. unfold cw_damaged.
    assert (E : exists a b r, cw_dops = FsData a b :: r) by (vm_compute; repeat eexists).
    destruct E as (a & b & r & ->). apply cr_next. cbn [fs_apply]. apply cr_stop.
  - vm_compute. reflexivity.
  - exists (repeat 3 (Z.to_nat 512) ++ repeat 3 (Z.to_nat 512)). split; [vm_compute; reflexivity|]. intros X. vm_compute in X. discriminate.
Qed.

(* after a killed add that is not repeated, deleting hangs *)
Definition cw_c : bytes := [99].
Definition cw_seven : bytes := repeat 7 (Z.to_nat 3000).
Definition cw_lops : list fsop := add_file_ops toy_sha cw_p0 cw_seven cw_c 0.
Lemma cw_lops_eq : cw_lops = add_file_ops toy_sha cw_p0 cw_seven cw_c 0.
Proof. unfold cw_lops. reflexivity. Qed.
Definition cw_left : bytes := match cw_lops with FsData a b :: _ => fwrite_at cw_f0 a b | _ => [] end.
Definition cw_l0 : pkg := mkPkg (fresh_header toy_sha) cw_left.
Definition cw_l1 : pkg := fst (pkg_add_file toy_sha cw_l0 cw_one cw_a 0).
Definition cw_l2 : pkg := fst (pkg_add_file toy_sha cw_l1 cw_big cw_b 0).
Definition cw_levs : list event :=
  [Killed (OAdd cw_c cw_seven 0); Done (OAdd cw_a cw_one 0); Done (OAdd cw_b cw_big 0)].
Lemma cw_left_life : life toy_sha false cw_levs (pk_file cw_l2) /\ pkg_open toy_sha true (pk_file cw_l2) = (pk_file cw_l2, Ok cw_l2).
Proof.
  split; [|vm_compute; reflexivity].
  unfold cw_l2. apply (life_add toy_sha false [Killed (OAdd cw_c cw_seven 0); Done (OAdd cw_a cw_one 0)] (pk_file cw_l1));
    [|vm_compute; reflexivity|vm_compute; reflexivity|vm_compute; discriminate|reflexivity].
  unfold cw_l1. apply (life_add toy_sha false [Killed (OAdd cw_c cw_seven 0)] cw_left); [|vm_compute; reflexivity|vm_compute; reflexivity|vm_compute; discriminate|reflexivity].
  eapply (life_kill toy_sha false [] cw_f0 cw_p0 (OAdd cw_c cw_seven 0)); [apply cw_new|vm_compute; reflexivity| |reflexivity].
  rewrite ops_of_add, <- cw_lops_eq. unfold cw_left.
  assert (E : exists a b r, cw_lops = FsData a b :: r) by (vm_compute; repeat eexists).
  destruct E as (a & b & r & ->). apply cr_next. cbn [fs_apply]. apply cr_stop.
Qed.
Lemma cw_left_hangs : snd (pkg_delete_part toy_sha cw_l2 (bpak_id cw_a) false) = Stuck /\
  (forall fuel, move_down_loop fuel (pk_file cw_l2) 4608 4096 1024 = Stuck).
Proof.
  assert (L : zlen (pk_file cw_l2) = 7096) by (vm_compute; reflexivity).
  split; [vm_compute; reflexivity|]. intros fuel. apply move_down_junk; rewrite ?L; try lia.
Qed.
