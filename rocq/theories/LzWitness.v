(* LzWitness.v -- the contract of LzSpec.v can be met: a small codec.  Each byte
   x is stored as 1, x; the stream ends with 0. *)
From Verif Require Import Base BaseLemmas BspatchModel BspatchSpec BsdiffModel LzModel LzSpec LzProofs.

Fixpoint toy_body (x : bytes) : bytes := match x with [] => [] | c :: r => 1 :: c :: toy_body r end.
Definition toy_stream (X Y : bytes) : Prop := Y = toy_body X ++ [0].
(* the encoder takes at most 1000 bytes at a time *)
Definition toy_enc : lzstream := mkLz unit tt
  (fun _ b _ fin => if fin then (tt, 0, [0], LzEnd)
                    else let n := Z.min (zlen b) 1000 in (tt, n, toy_body (ztake n b), LzOk))
  (fun _ len fin => if fin then O else Z.to_nat len).
Inductive tmode := TTag | TByte | TDone | TBad.
Definition tstep (x : tmode * bytes) (c : Z) : tmode * bytes :=
  match x with
  | (TTag, o) => if c =? 0 then (TDone, o) else if c =? 1 then (TByte, o) else (TBad, o)
  | (TByte, o) => (TTag, o ++ [c])
  | (_, o) => (TBad, o)
  end.
Definition trun (x : tmode * bytes) (b : bytes) : tmode * bytes := fold_left tstep b x.
Definition toy_dec : lzstream := mkLz tmode TTag
  (fun s b _ fin =>
     if fin then (s, 0, [], match s with TDone => LzEnd | _ => LzErr end)
     else let n := Z.min (zlen b) 3000 in
          let (s1, o) := trun (s, []) (ztake n b) in
          (s1, n, o, match s1 with TBad => LzErr | _ => LzOk end))
  (fun _ len fin => if fin then O else Z.to_nat len).
Definition toy_lz : lzlib := mkLib toy_enc toy_dec.

Lemma toy_body_app a b : toy_body (a ++ b) = toy_body a ++ toy_body b.
Proof. induction a as [|c a IH]; cbn [toy_body app]; [reflexivity|]. rewrite IH. reflexivity. Qed.
Lemma toy_body_bytes a : bytes_ok a -> bytes_ok (toy_body a).
Proof.
  induction a as [|c a IH]; intros H; cbn [toy_body]; [constructor|]. apply Forall_cons_iff in H as [H1 H2].
  constructor; [unfold byte_ok; lia|]. constructor; [exact H1|]. apply IH; exact H2.
Qed.
Lemma bytes_ok_ztake' n b : bytes_ok b -> bytes_ok (ztake n b).
Proof. intros H. rewrite <- (ztake_zdrop n b) in H. apply bytes_ok_app in H as [H _]. exact H. Qed.
Lemma toy_encodes : lz_encodes toy_enc toy_stream.
Proof.
  exists (fun _ X Y => Y = toy_body X), (fun _ X Y => Y = toy_body X). split; [reflexivity|]. split; [auto|]. split.
  - intros [] X Y b -> B N. cbn [lz_code toy_enc]. pose proof (zlen_pos b N).
    eexists tt, _, _. split; [reflexivity|]. split; [lia|]. split; [apply toy_body_bytes, bytes_ok_ztake'; exact B|].
    split; [rewrite toy_body_app; reflexivity|]. cbn [lz_calls toy_enc]. lia.
  - intros [] X Y ->. cbn [lz_code toy_enc]. eexists tt, _, _, _. split; [reflexivity|]. split; [constructor; [unfold byte_ok; lia|constructor]|]. reflexivity.
Qed.
Lemma trun_app x a b : trun x (a ++ b) = trun (trun x a) b.
Proof. unfold trun. apply fold_left_app. Qed.
Lemma trun_out b : forall s o, trun (s, o) b = (fst (trun (s, []) b), o ++ snd (trun (s, []) b)).
Proof.
  induction b as [|c b IH]; intros s o; [cbn; rewrite app_nil_r; reflexivity|].
  change (trun (s, o) (c :: b)) with (trun (tstep (s, o) c) b). change (trun (s, []) (c :: b)) with (trun (tstep (s, []) c) b).
  destruct s; cbn [tstep].
  - destruct (c =? 0); [apply IH|]. destruct (c =? 1); apply IH.
  - etransitivity; [apply IH|]. cbn [app]. pose proof (IH TTag [c]) as Q. unfold bytes in *. rewrite Q. cbn [fst snd]. rewrite <- app_assoc. reflexivity.
  - apply IH.
  - apply IH.
Qed.
Lemma trun_prefix X : forall p r, p ++ r = toy_body X ++ [0] ->
  exists s o, trun (TTag, []) p = (s, o) /\ s <> TBad /\ (exists x, X = o ++ x) /\
    (r = [] -> s = TDone /\ o = X) /\ (r <> [] -> s <> TDone).
Proof.
  induction X as [|c X IH]; intros p r E; cbn [toy_body app] in E.
  - destruct p as [|a p]; cbn [app] in E.
    + subst r. exists TTag, []. split; [reflexivity|]. split; [discriminate|]. split; [exists []; reflexivity|]. split; congruence.
    + injection E as -> E. destruct p; [|discriminate]. cbn in E. subst r. exists TDone, [].
      split; [reflexivity|]. split; [discriminate|]. split; [exists []; reflexivity|]. split; [auto|congruence].
  - destruct p as [|a p]; cbn [app] in E.
    + subst r. exists TTag, []. split; [reflexivity|]. split; [discriminate|]. split; [exists (c :: X); reflexivity|]. split; congruence.
    + injection E as -> E. destruct p as [|a p]; cbn [app] in E.
      * subst r. exists TByte, []. split; [reflexivity|]. split; [discriminate|]. split; [exists (c :: X); reflexivity|]. split; congruence.
      * injection E as -> E. destruct (IH p r E) as (s & o & T & S & [x Xx] & K1 & K2).
        change (trun (TTag, []) (1 :: c :: p)) with (trun (TTag, [c]) p). rewrite trun_out, T. cbn [fst snd app].
        exists s, (c :: o). split; [reflexivity|]. split; [exact S|]. split; [exists x; rewrite Xx; reflexivity|].
        split; [|exact K2]. intros N. destruct (K1 N) as [-> ->]. auto.
Qed.
Lemma toy_decodes : lz_decodes toy_dec toy_stream.
Proof.
  intros X Y EY. unfold toy_stream in EY.
  exists (fun s C O => trun (TTag, []) C = (s, O)), (fun s C O => trun (TTag, []) C = (s, O)).
  split; [reflexivity|]. split; [auto|]. split.
  - intros s C O b rest R N E. cbn [lz_code toy_dec lz_st] in *. pose proof (zlen_pos b N). set (n := Z.min (zlen b) 3000).
    assert (P : (C ++ ztake n b) ++ zdrop n b ++ rest = toy_body X ++ [0]).
    { rewrite <- EY, E, <- !app_assoc, (app_assoc (ztake n b)), ztake_zdrop. reflexivity. }
    destruct (trun_prefix X _ _ P) as (s1 & o & T & S & [x Xx] & _).
    rewrite trun_app, R, trun_out in T. destruct (trun (s, []) (ztake n b)) as [s2 o2] eqn:Tb. cbn [fst snd] in T. injection T as -> To.
    exists s1, n, o2. split; [destruct s1; congruence|]. split; [lia|]. split; [rewrite trun_app, R, trun_out, Tb; reflexivity|].
    split; [exists x; rewrite Xx, <- To, <- app_assoc; reflexivity|]. cbn [lz_calls toy_dec]. lia.
  - intros s C O rest R E. cbn [lz_code toy_dec lz_st] in *. rewrite EY in E. symmetry in E.
    destruct (trun_prefix X _ _ E) as (s1 & o & T & S & [x Xx] & K1 & K2). rewrite R in T. injection T as -> ->.
    eexists s1, 0, [], _. split; [reflexivity|]. split; [exists x; exact Xx|].
    assert (D : rest = [] \/ rest <> []) by (destruct rest; [left; reflexivity|right; discriminate]).
    destruct D as [D|D].
    + destruct (K1 D) as [-> ->]. rewrite app_nil_r. auto.
    + specialize (K2 D). destruct s1; congruence.
Qed.
Lemma toy_lz_good : lz_good toy_lz.
Proof. exists toy_stream. split; [exact toy_encodes|exact toy_decodes]. Qed.
Lemma toy_progresses : lz_progresses toy_dec.
Proof.
  intros s b fin s1 n out H E. cbn [lz_code toy_dec lz_st lz_calls] in *. destruct fin.
  - destruct s; discriminate.
  - destruct H as [H|H]; [|discriminate]. pose proof (zlen_pos b H).
    destruct (trun (s, []) (ztake (Z.min (zlen b) 3000) b)) as [s2 o]. injection E as <- <- <- _. lia.
Qed.
