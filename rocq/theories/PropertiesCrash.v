(* PropertiesCrash.v -- C50, C51 *)
From Verif Require Import Base BaseLemmas HeaderModel HeaderSpec HeaderHistory CodecProofs MetaProofs CrcModel HashModel MerkleModel MerkleApi
  VerifyModel VerifySpec VerifyProofs PkgModel PkgSpec PkgProofs PkgDelete PkgHistory PkgApi
  CrashModel CrashSpec CrashProofs CrashDelete CrashMain CrashKilledDelete CrashWitness.

(* The lists of file operations that the crash theorems quantify over produce
   exactly the file the modelled call leaves *)
Theorem C50_operations_of_the_calls sha p :
  (forall data name flags, zlen data < 2^63 ->
     fs_replay (pk_file p) (ops_of sha p (OAdd name data flags)) = pk_file (fst (pkg_add_file sha p data name flags))) /\
  (forall id rm, snd (pkg_delete_part sha p id rm) = Ok tt ->
     fs_replay (pk_file p) (ops_of sha p (ODel id rm)) = pk_file (fst (pkg_delete_part sha p id rm))) /\
  (forall rm, snd (pkg_delete_all_parts sha p rm) = Ok tt ->
     fs_replay (pk_file p) (ops_of sha p (ODelAll rm)) = pk_file (fst (pkg_delete_all_parts sha p rm))).
Proof.
  split; [|split]; intros; cbn [ops_of].
  - now apply add_file_replay.
  - now apply delete_part_replay.
  - now apply delete_all_replay.
Qed.
Print Assumptions C50_operations_of_the_calls.

(* C50: whatever calls were made on a package, and whichever of them were
   killed and where, the file opens, the files in it can be extracted, nothing
   else is in it, the payload hash is current; a killed call took effect
   entirely or not at all.
   Missing: killed bpak_pkg_delete_part calls ([event_ok]) and a header write
   cut short ([torn = false]); the refutations below show both matter *)
Theorem C50_killed_calls_partial sha evs f : good_hash sha -> life sha false evs f ->
  Forall event_ok evs -> 4096 + events_cost evs <= 2^63 ->
  exists p fs, may_hold bpak_id evs fs /\ usable sha f p fs.
Proof. exact (life_usable sha evs f). Qed.
Print Assumptions C50_killed_calls_partial.
(* a killed bpak_pkg_delete_part: either it took effect, or the package still
   opens with the old part table and every file in front of the deleted one is
   intact; for the last file of a package nothing at all is lost *)
Theorem C50_killed_delete_partial sha p fa x fb rm g : good_hash sha -> pkg_inv sha p (fa ++ x :: fb) ->
  crashed false (pk_file p) (ops_of sha p (ODel (f_id x) rm)) g ->
  (exists p', usable sha g p' (fa ++ fb)) \/
  pkg_open sha false g = (g, Ok (mkPkg (pk_header p) g)) /\
  (forall y, In y fa -> pkg_extract_file (mkPkg (pk_header p) g) (f_id y) = (Some (f_data y), Ok tt)) /\
  (fb = [] -> usable sha g (mkPkg (pk_header p) g) (fa ++ x :: fb)).
Proof. exact (killed_delete sha p fa x fb rm g). Qed.
Print Assumptions C50_killed_delete_partial.
(* the header is written in place: a write cut short leaves a file that cannot
   be opened any more *)
Theorem C50_torn_header_refuted : exists sha evs f e, good_hash sha /\ Forall event_ok evs /\ life sha true evs f /\
  pkg_open sha false f = (f, Err e).
Proof.
  exists toy_sha. eexists. eexists. eexists. split; [exact toy_sha_good|]. destruct torn_header_life as [L O].
  split; [|split; [exact L|exact O]]. repeat constructor; cbn; try lia; try discriminate.
Qed.
Print Assumptions C50_torn_header_refuted.
(* a killed delete: the package opens, a file that was to be kept comes out
   with other bytes *)
Theorem C50_killed_delete_refuted : exists sha evs f p d d', good_hash sha /\ Forall (fun e => pkg_op_ok (event_op e)) evs /\
  life sha false evs f /\ pkg_open sha false f = (f, Ok p) /\
  In (mkFile (bpak_id cw_b) 0 d) (fst (fst (spec_pkg_op bpak_id [mkFile (bpak_id cw_a) 0 cw_one] (OAdd cw_b d 0)))) /\
  evs = [Done (OAdd cw_a cw_one 0); Done (OAdd cw_b d 0); Killed (ODel (bpak_id cw_a) false)] /\
  pkg_extract_file p (bpak_id cw_b) = (Some d', Ok tt) /\ d' <> d.
Proof.
  destruct killed_delete_life as (L & O & d' & E & N).
  exists toy_sha. eexists. eexists. eexists. exists cw_big, d'. split; [exact toy_sha_good|]. split; [|split; [exact L|split; [exact O|]]].
  - repeat constructor; cbn [event_op pkg_op_ok]; try (vm_compute; congruence); repeat split; try (vm_compute; congruence); repeat constructor; lia.
  - split; [|split; [reflexivity|split; [exact E|exact N]]].
    assert (X : existsb (fun f => f_id f =? bpak_id cw_b) [mkFile (bpak_id cw_a) 0 cw_one] = false) by (vm_compute; reflexivity).
    unfold spec_pkg_op. rewrite X. cbn [length Nat.leb fst]. apply in_or_app. right. left. reflexivity.
Qed.
Print Assumptions C50_killed_delete_refuted.
(* three calls, the first one killed after its data was written *)
Example C50_instance : good_hash toy_sha /\ life toy_sha false cw_levs (pk_file cw_l2) /\ Forall event_ok cw_levs /\
  4096 + events_cost cw_levs <= 2^63.
Proof.
  split; [exact toy_sha_good|]. split; [exact (proj1 cw_left_life)|]. split.
  - unfold cw_levs. repeat constructor; cbn [event_op pkg_op_ok]; try (vm_compute; congruence); repeat split; try (vm_compute; congruence);
      repeat constructor; lia.
  - vm_compute. discriminate.
Qed.

(* C51: bpak_pkg_delete_part on a package with remains of a killed call behind
   the last part.  Exact: if the sizes of the parts behind the deleted one add
   up to a multiple of 4096 the remains disappear and the result is the one
   without them; otherwise the call never returns, however long it runs *)
Theorem C51_delete_after_crash_partial sha p (a : list (parth * bytes)) q c b rm J : good_hash sha -> holds p (a ++ (q, c) :: b) ->
  hash_supported (h_hash_kind (pk_header p)) = true ->
  (rm = true -> exists live, metas_are (h_meta (pk_header p)) (h_metadata (pk_header p)) live /\ (length live < 32)%nat /\
                no_ghost_refs (h_meta (pk_header p))) ->
  zlen (concat (map snd b)) mod 4096 = 0 ->
  pkg_delete_part sha (with_junk p J) (p_id q) rm = pkg_delete_part sha p (p_id q) rm.
Proof. exact (delete_part_junk_gone sha p a q c b rm J). Qed.
Print Assumptions C51_delete_after_crash_partial.
Theorem C51_delete_after_crash_hangs sha p (a : list (parth * bytes)) q c b rm J : holds p (a ++ (q, c) :: b) -> J <> [] ->
  zlen (pk_file p ++ J) < 2^63 -> zlen (concat (map snd b)) mod 4096 <> 0 ->
  (rm = true -> exists live, metas_are (h_meta (pk_header p)) (h_metadata (pk_header p)) live /\ (length live < 32)%nat /\
                no_ghost_refs (h_meta (pk_header p))) ->
  snd (pkg_delete_part sha (with_junk p J) (p_id q) rm) = Stuck /\
  forall fuel, move_down_loop fuel (pk_file p ++ J) (4096 + zlen (concat (map snd a)) + zlen c) (4096 + zlen (concat (map snd a)))
                 (zlen (concat (map snd b))) = Stuck.
Proof. exact (delete_part_junk_hangs sha p a q c b rm J). Qed.
Print Assumptions C51_delete_after_crash_hangs.
(* reachable: one killed add, two adds, then a delete *)
Theorem C51_delete_after_crash_refuted : exists evs f p id, good_hash toy_sha /\ Forall event_ok evs /\ life toy_sha false evs f /\
  pkg_open toy_sha true f = (f, Ok p) /\ snd (pkg_delete_part toy_sha p id false) = Stuck /\
  (forall fuel, move_down_loop fuel f 4608 4096 1024 = Stuck).
Proof.
  destruct C50_instance as (G & L & E & _). destruct cw_left_life as [_ O]. destruct cw_left_hangs as [H1 H2].
  exists cw_levs, (pk_file cw_l2), cw_l2, (bpak_id cw_a).
  split; [exact G|]. split; [exact E|]. split; [exact L|]. split; [exact O|]. split; [exact H1|exact H2].
Qed.
Print Assumptions C51_delete_after_crash_refuted.
