(* C57: the video resampler. *)
From Coq Require Import ZArith List Bool Lia.
From Verif Require Import NamesModel RsmModel RsmSpec RsmProofs.
Import ListNotations.
Local Open Scope list_scope.
Local Open Scope Z_scope.

Lemma target_wanted valid o i ops f : target (run valid (rsm0 o i) ops) f = wanted o ops f.
Proof. destruct (settings valid o i ops) as (A & B & C & _). unfold target, wanted. rewrite A, B, C. reflexivity. Qed.
Lemma outFmt_wanted valid o i ops f : outFmt (run valid (rsm0 o i) ops) = fmt (wanted o ops f).
Proof. rewrite <- (target_wanted valid o i). reflexivity. Qed.

(* C57.  After any history of requests and pictures, every picture made has
   the size and format wanted, its announced length is that of such a
   picture, it lies within its buffer, and it was converted from a picture of
   exactly the size and format of the one given. *)
Theorem C57_made valid o i ops f s' p len c :
  process valid (run valid (rsm0 o i) ops) f = (s', Made p len c) ->
  p = wanted o ops f /\ c = (f, p) /\ len = imageSize p /\ len <= room.
Proof.
  change room with slotSize.
  intros H. pose proof (process_spec valid _ f (run_inv valid ops _ (inv0 valid o i))) as P. rewrite H in P.
  destruct P as (_ & _ & _ & _ & _ & P). rewrite (target_wanted valid o i ops f) in P.
  destruct (okpics _ _ _); [|discriminate]. destruct (Z.leb_spec (imageSize (wanted o ops f)) slotSize); [|discriminate].
  inversion P; subst. auto.
Qed.

(* C57.  A picture is made exactly when both it and the picture wanted are
   acceptable and the latter fits: no earlier failure or format matters. *)
Theorem C57_when_partial valid o i ops f :
  (exists s' p len c, process valid (run valid (rsm0 o i) ops) f = (s', Made p len c)) <->
  known (fmt f) = true /\ valid f = true /\
  known (fmt (wanted o ops f)) = true /\ valid (wanted o ops f) = true /\ imageSize (wanted o ops f) <= room.
Proof.
  change room with slotSize.
  pose proof (process_spec valid _ f (run_inv valid ops _ (inv0 valid o i))) as P.
  destruct (process valid (run valid (rsm0 o i) ops) f) as [s' r]. destruct P as (_ & _ & _ & _ & _ & P).
  unfold okpics in P. rewrite (target_wanted valid o i ops f), (outFmt_wanted valid o i ops f) in P. split.
  - intros (s1 & p & len & c & E). injection E as _ E. rewrite E in P. clear E.
    destruct (known (fmt f)); [|discriminate]. destruct (valid f); [|discriminate].
    destruct (known (fmt (wanted o ops f))); [|discriminate]. destruct (valid (wanted o ops f)); [|discriminate].
    cbn [andb] in P. destruct (Z.leb_spec (imageSize (wanted o ops f)) slotSize); [|discriminate]. auto.
  - intros (A & B & C & D & E). rewrite A, B, C, D in P. cbn [andb] in P. apply Z.leb_le in E. rewrite E in P.
    subst r. do 4 eexists. reflexivity.
Qed.

(* C57 is false: a wanted picture larger than a slot is written beyond it. *)
Theorem C57_overflow_refuted valid o i ops f :
  known (fmt f) = true -> valid f = true -> known (fmt (wanted o ops f)) = true -> valid (wanted o ops f) = true ->
  room < imageSize (wanted o ops f) ->
  snd (process valid (run valid (rsm0 o i) ops) f) = Overflow.
Proof.
  change room with slotSize.
  intros A B C D E. pose proof (process_spec valid _ f (run_inv valid ops _ (inv0 valid o i))) as P.
  destruct (process valid (run valid (rsm0 o i) ops) f) as [s' r]. destruct P as (_ & _ & _ & _ & _ & P).
  unfold okpics in P. rewrite (target_wanted valid o i ops f), (outFmt_wanted valid o i ops f), A, B, C, D in P. cbn [andb] in P.
  apply Z.leb_gt in E. rewrite E in P. exact P.
Qed.
(* Full HD in four bytes a pixel is such a picture. *)
Theorem C57_full_hd_refuted : room < imageSize (mkPic 1920 1080 RGB32).
Proof. reflexivity. Qed.

(* C57.  The time between pictures is that of the rate last asked for,
   however many requests about other things came since. *)
Theorem C57_rate valid o i ops : ftime (run valid (rsm0 o i) ops) = wantedTime ops.
Proof. apply (settings valid o i ops). Qed.

(* C57 is false: until a format is asked for, the format is whatever was in
   memory. *)
Theorem C57_first_format_refuted valid i f : valid (mkPic (width f) (height f) RGB24) = true ->
  valid (mkPic (width f) (height f) YUV420P) = true -> known (fmt f) = true -> valid f = true ->
  0 <= width f -> 0 <= height f -> 4 * width f * height f <= slotSize ->
  exists o1 o2 p1 p2 l1 l2, fmt p1 <> fmt p2 /\
  snd (process valid (rsm0 o1 i) f) = Made p1 l1 (f, p1) /\ snd (process valid (rsm0 o2 i) f) = Made p2 l2 (f, p2).
Proof.
  intros A B K V W H S. assert (WH : 0 <= width f * height f) by (apply Z.mul_nonneg_nonneg; assumption).
  assert (G : forall o, known o = true -> valid (mkPic (width f) (height f) o) = true -> imageSize (mkPic (width f) (height f) o) <= slotSize ->
    snd (process valid (rsm0 o i) f) = Made (mkPic (width f) (height f) o) (imageSize (mkPic (width f) (height f) o)) (f, mkPic (width f) (height f) o)).
  { intros o Ko Vo So. pose proof (process_spec valid _ f (inv0 valid o i)) as P. destruct (process valid (rsm0 o i) f) as [s' r].
    destruct P as (_ & _ & _ & _ & _ & P). unfold okpics in P.
    replace (target (rsm0 o i) f) with (mkPic (width f) (height f) o) in P by reflexivity.
    change (outFmt (rsm0 o i)) with o in P. rewrite K, V, Ko, Vo in P. cbn [andb] in P. apply Z.leb_le in So. rewrite So in P. exact P. }
  exists RGB24, YUV420P. do 4 eexists. split; [|split; apply G; try assumption; try reflexivity].
  - discriminate.
  - cbn [imageSize fmt width height]. nia.
  - cbn [imageSize fmt width height]. assert (half (width f) <= width f + 1) by (unfold half; apply Z.div_le_upper_bound; lia). 
    assert (X1 : 0 <= half (width f)) by (unfold half; apply Z.div_pos; lia).
    assert (X2 : 0 <= half (height f)) by (unfold half; apply Z.div_pos; lia).
    assert (Y1 : width f = 0 /\ half (width f) = 0 \/ 0 < width f /\ half (width f) <= width f).
    { destruct (Z.eq_dec (width f) 0) as [E|E]; [left; rewrite E; auto|right; split; [lia|]]. unfold half. apply Z.div_le_upper_bound; lia. }
    assert (Y2 : height f = 0 /\ half (height f) = 0 \/ 0 < height f /\ half (height f) <= height f).
    { destruct (Z.eq_dec (height f) 0) as [E|E]; [left; rewrite E; auto|right; split; [lia|]]. unfold half. apply Z.div_le_upper_bound; lia. }
    assert (half (width f) * half (height f) <= width f * height f) by nia. nia.
Qed.

(* C57 is false: the format YUVJ420P, which the resampler can make, cannot be
   asked for; and asking for no format is refused but takes effect, so that
   no picture is made any more. *)
Theorem C57_format_refuted valid o i ops q z : qFmt q = Some z ->
  (z = 6 -> configEvent (run valid (rsm0 o i) ops) q = (run valid (rsm0 o i) ops, false)) /\
  (z = -1 -> snd (configEvent (run valid (rsm0 o i) ops) q) = false /\
     forall f, snd (process valid (run valid (rsm0 o i) (ops ++ [Configure q])) f) = Refused).
Proof.
  intros Q. split; intros ->.
  - unfold configEvent. rewrite Q. reflexivity.
  - split; [unfold configEvent; rewrite Q; reflexivity|]. intros f.
    pose proof (process_spec valid _ f (run_inv valid (ops ++ [Configure q]) _ (inv0 valid o i))) as P.
    destruct (process valid _ f) as [s' r]. destruct P as (_ & _ & _ & _ & _ & P).
    unfold okpics in P. rewrite (outFmt_wanted valid o i _ f) in P. unfold wanted in P. rewrite !newest_snoc in P. unfold taken in P.
    rewrite Q in P. cbn in P. destruct (known (fmt f)); cbn [andb] in P; [destruct (valid f)|]; exact P.
Qed.

(* C57 is false: conversion contexts are never freed.  Whenever the size of
   the pictures changes one more is kept. *)
Fixpoint alternate (a b : pic) (n : nat) : list op :=
  match n with O => [] | S k => alternate a b k ++ [Frame a; Frame b] end.
Theorem C57_leak_refuted valid i a b o n : width a <> width b -> known o = true ->
  (forall p, valid p = true) -> known (fmt a) = true -> known (fmt b) = true ->
  live (run valid (rsm0 o i) (alternate a b n)) = (2 * n)%nat.
Proof.
  intros W K V A B.
  assert (G : live (run valid (rsm0 o i) (alternate a b n)) = (2 * n)%nat /\
    (n = O \/ ctx (run valid (rsm0 o i) (alternate a b n)) <> None /\ inW (run valid (rsm0 o i) (alternate a b n)) = width b) /\
    outFmt (run valid (rsm0 o i) (alternate a b n)) = o).
  { induction n as [|n IH]; [repeat split; auto|]. cbn [alternate]. unfold run in *. rewrite fold_left_app. cbn [fold_left step].
    set (s := fold_left (step valid) (alternate a b n) (rsm0 o i)) in *. destruct IH as (L & C & F).
    assert (S1 : forall s x, outFmt s = o -> known (fmt x) = true -> ctx s = None \/ inW s <> width x ->
      live (fst (process valid s x)) = S (live s) /\ ctx (fst (process valid s x)) <> None /\ inW (fst (process valid s x)) = width x /\ outFmt (fst (process valid s x)) = o).
    { clear - K V. intros s x F X D. unfold process, reconfigure.
      destruct (ctx s) as [c|] eqn:C.
      - assert (D' : (width x =? inW s) = false) by (apply Z.eqb_neq; destruct D as [D|D]; congruence). rewrite D', andb_false_r. cbn [andb].
        rewrite X, F, K, !V. cbn -[imageSize slotSize Z.leb known]. rewrite ?F, ?K, ?V. cbn -[imageSize slotSize Z.leb known].
        destruct (imageSize _ <=? _); cbn; rewrite ?F; repeat split; auto; discriminate.
      - rewrite X, F, K, !V. cbn -[imageSize slotSize Z.leb known]. rewrite ?F, ?K, ?V. cbn -[imageSize slotSize Z.leb known].
        destruct (imageSize _ <=? _); cbn; rewrite ?F; repeat split; auto; discriminate. }
    destruct (S1 s a F A) as (L1 & C1 & W1 & F1).
    { destruct C as [->|[C1 C2]]; [left; reflexivity|right; congruence]. }
    destruct (S1 _ b F1 B) as (L2 & C2 & W2 & F2); [right; congruence|].
    rewrite L2, L1, L. split; [lia|]. split; [right; split; assumption|exact F2]. }
  apply G.
Qed.

(* Cases. *)
Definition anyPic (p : pic) : bool := (0 <? width p) && (0 <? height p).
Definition req1 := mkReq (Some 640) None (Some 30) (Some 2).
Example C57_case :
  snd (process anyPic (run anyPic (rsm0 RGB32 P_NONE)
        [Frame (mkPic 100 100 RGB24); Configure req1; Frame (mkPic 1280 720 P_NONE); Configure (mkReq None (Some 360) None None)])
        (mkPic 1280 720 YUYV422))
  = Made (mkPic 640 360 YUV420P) 345600 (mkPic 1280 720 YUYV422, mkPic 640 360 YUV420P).
Proof. vm_compute. reflexivity. Qed.
Example C57_case_rate : ftime (run anyPic (rsm0 RGB32 P_NONE) [Configure (mkReq None None (Some 700) None); Configure req1; Configure (mkReq None (Some 1) None None)]) = 33333.
Proof. vm_compute. reflexivity. Qed.

Print Assumptions C57_made.
Print Assumptions C57_when_partial.
Print Assumptions C57_overflow_refuted.
Print Assumptions C57_full_hd_refuted.
Print Assumptions C57_rate.
Print Assumptions C57_first_format_refuted.
Print Assumptions C57_format_refuted.
Print Assumptions C57_leak_refuted.
