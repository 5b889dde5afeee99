(* C65: the frames of a camera and when they come. *)
From Coq Require Import ZArith List Bool Lia Permutation.
From Verif Require Import NamesModel V4lModel V4fModel V4fSpec V4fProofs.
Import ListNotations.
Local Open Scope Z_scope.
Local Open Scope list_scope.

(* The number of bytes of the driver's picture that are copied *)
Definition whole (s : capt) : Z := fh (fmt (ccam s)) * fbpl (fmt (ccam s)).

(* A round hands on a frame exactly if the driver brings one. The frame has
   the camera's size and format, the time it was taken, and starts with the
   lines of the driver's buffer. *)
Theorem C65_frame : forall s f r, fits s f r ->
  ((exists s' f' ret, doProcessFrame s f r = Done s' f' true ret) <-> st (ccam s) = SCapture /\ brings s r)
  /\ forall s' f' ret, doProcessFrame s f r = Done s' f' true ret ->
       firstn (Z.to_nat (whole s)) (bytes f') = firstn (Z.to_nat (whole s)) (rData r)
       /\ fsize f' = (fw (fmt (ccam s)), fh (fmt (ccam s))) /\ fpix f' = opix (ccam s) /\ pts f' = t3 r.
Proof.
  intros s f r F. unfold fits in F. fold (whole s) in F. destruct F as (F0 & F1 & F2).
  assert (Cp : copied (fmt (ccam s)) = whole s). { unfold copied, whole in *. apply Z.mod_small. exact F0. }
  assert (NO : (Z.of_nat (List.length (rData r)) <? whole s) || (room f <? whole s) = false).
  { destruct (Z.ltb_spec (Z.of_nat (List.length (rData r))) (whole s)); [lia|]. destruct (Z.ltb_spec (room f) (whole s)); [lia|]. reflexivity. }
  assert (Fst : forall f', bytes f' = firstn (Z.to_nat (whole s)) (rData r) ++ skipn (Z.to_nat (whole s)) (bytes f) ->
     firstn (Z.to_nat (whole s)) (bytes f') = firstn (Z.to_nat (whole s)) (rData r)).
  { intros f' E. rewrite E, firstn_app, firstn_firstn, Nat.min_id.
    assert (L : List.length (firstn (Z.to_nat (whole s)) (rData r)) = Z.to_nat (whole s)) by (rewrite firstn_length; lia).
    rewrite L, Nat.sub_diag. cbn [firstn]. apply app_nil_r. }
  split; [split|].
  - intros (s' & f' & ret & H). unfold doProcessFrame in H. destruct (st (ccam s)); try discriminate. split; [reflexivity|].
    unfold getFrame in H. destruct (rSel r) eqn:Se; try discriminate. unfold readFrame in H. destruct (rDq r) as [i|] eqn:Dq; [|discriminate].
    destruct (existsb (Nat.eqb i) (queue s)) eqn:Ex; [|discriminate]. rewrite Cp, NO in H. destruct (rQ r) eqn:Q; [|discriminate].
    split; [exact Se|]. split; [exists i; split; [exact Dq|now apply existsb_in]|exact Q].
  - intros (S1 & Se & (i & Dq & Ex) & Q). rewrite (process_capture s f r S1). unfold getFrame. rewrite Se. unfold readFrame.
    rewrite Dq. apply existsb_in in Ex. rewrite Ex, Cp, NO, Q. cbv zeta. eauto.
  - intros s' f' ret H. unfold doProcessFrame in H. destruct (st (ccam s)); try discriminate.
    unfold getFrame in H. destruct (rSel r) eqn:Se; try discriminate. unfold readFrame in H. destruct (rDq r) as [i|] eqn:Dq; [|discriminate].
    destruct (existsb (Nat.eqb i) (queue s)) eqn:Ex; [|discriminate]. rewrite Cp, NO in H. destruct (rQ r) eqn:Q; [|discriminate].
    injection H as <- <- <-. cbn [stamp bytes fsize fpix pts]. split; [|auto]. now apply (Fst (mkV (room f) _ (flen f) (0, 0) P_NONE 0)).
Qed.
Print Assumptions C65_frame.

(* For YUYV and RGB24 without padding that is the whole picture. Partial: not
   for YUV420 and coded formats (C65_planar_refuted, C65_coded_refuted). *)
Theorem C65_picture_partial : forall s f r s' f' ret, fits s f r ->
  (ff (fmt (ccam s)) = FYuyv \/ ff (fmt (ccam s)) = FRgb24) ->
  fbpl (fmt (ccam s)) = lineBytes (ff (fmt (ccam s))) (fw (fmt (ccam s))) ->
  doProcessFrame s f r = Done s' f' true ret ->
  let n := Z.to_nat (pictureBytes (ff (fmt (ccam s))) (fw (fmt (ccam s))) (fh (fmt (ccam s)))) in
  firstn n (bytes f') = firstn n (rData r).
Proof.
  intros s f r s' f' ret F K B H n. destruct (C65_frame s f r F) as (_ & X). destruct (X _ _ _ H) as (Y & _).
  replace n with (Z.to_nat (whole s)); [exact Y|]. unfold n, whole. rewrite B. f_equal. destruct K as [-> | ->]; cbn [pictureBytes lineBytes]; lia.
Qed.
Print Assumptions C65_picture_partial.

(* The wait a round asks for is at most the interval of frames and a 64th of
   it, if the clock does not go back during the round. *)
Theorem C65_wait : forall s f r s' f' ok ret, doProcessFrame s f r = Done s' f' ok ret -> st (ccam s) = SCapture ->
  0 <= cdur s < 2 ^ 30 -> t1 r <= t2 r <= t3 r -> t3 r - t1 r < 2 ^ 30 ->
  ret <= cdur s + cdur s / 64.
Proof.
  intros s f r s' f' ok ret H S1 D T L. rewrite (process_capture s f r S1) in H.
  assert (W : nextWall s r - t3 r <= cdur s + cdur s / 64 /\ - 2 ^ 31 <= nextWall s r - t3 r).
  { unfold nextWall. rewrite Z.quot_div_nonneg by lia. pose proof (Z.div_pos (cdur s) 64 ltac:(lia) ltac:(lia)).
    assert (cdur s / 64 <= cdur s) by (apply Z.div_le_upper_bound; lia).
    destruct (Z.ltb_spec (cdur s / 64) (Z.abs (t1 r - wall s))); lia. }
  assert (B : cdur s / 64 <= cdur s) by (apply Z.div_le_upper_bound; lia).
  assert (E : ret = int32 (nextWall s r - t3 r)).
  { destruct (getFrame (ccam s) (queue s) f r); [discriminate| |]; cbv zeta in H; congruence. }
  rewrite E, int32_id; lia.
Qed.
Print Assumptions C65_wait.

(* As long as rounds start on time and the interval stays, there is no drift:
   the end of the wait of round i is the start of the schedule plus i+1
   intervals, exactly. *)
Fixpoint onTime (w d : Z) (l : list (vframe * round)) (o : list (option vframe * Z)) : Prop :=
  match l, o with
  | (_, r) :: l', (_, ret) :: o' => t3 r + ret = w + d /\ onTime (w + d) d l' o'
  | _, _ => True
  end.
Theorem C65_cadence : forall d l s s' o, rounds s l = Some (s', o) -> st (ccam s) = SCapture -> cdur s = d -> 0 <= d < 2 ^ 30 ->
  (* the interval is not changed *)
  (forall l1 x l2, l = l1 ++ x :: l2 -> forall s1 o1, rounds s l1 = Some (s1, o1) ->
      cdur s1 = d /\ Z.abs (t1 (snd x) - (wall s + d * Z.of_nat (List.length l1))) <= d / 64
      /\ t1 (snd x) <= t3 (snd x) /\ t3 (snd x) - t1 (snd x) < 2 ^ 30) ->
  onTime (wall s) d l o.
Proof.
  intros d. induction l as [|[f r] l IH]; intros s s' o H S1 D B C; cbn [rounds] in H.
  - injection H as <- <-. exact Logic.I.
  - destruct (doProcessFrame s f r) as [|s1 f1 ok ret] eqn:P; [discriminate|].
    destruct (rounds s1 l) as [[s2 o2]|] eqn:R; [|discriminate]. injection H as <- <-.
    destruct (C [] (f, r) l eq_refl s [] eq_refl) as (_ & T & T2 & T3). cbn [snd List.length] in T, T2, T3. rewrite Z.mul_0_r, Z.add_0_r in T.
    assert (W : nextWall s r = wall s + d).
    { unfold nextWall. rewrite D, Z.quot_div_nonneg by lia. destruct (Z.ltb_spec (d / 64) (Z.abs (t1 r - wall s))); [lia|reflexivity]. }
    assert (Q : ret = int32 (nextWall s r - t3 r) /\ wall s1 = nextWall s r /\ st (ccam s1) = SCapture).
    { pose proof P as P'. rewrite (process_capture s f r S1) in P'. destruct (getFrame (ccam s) (queue s) f r); [discriminate| |];
      cbv zeta in P'; injection P' as <- <- <- <-; cbn; auto. }
    destruct Q as (Q1 & Q2 & Q3).
    assert (d / 64 <= d) by (apply Z.div_le_upper_bound; lia).
    rewrite int32_id in Q1 by lia. cbn [onTime]. split; [lia|]. rewrite <- W, <- Q2.
    destruct (Nat.eq_dec (List.length l) 0) as [Ln|Ln].
    { destruct l; [|discriminate]. exact Logic.I. }
    eapply IH; try eassumption.
    + destruct l as [|y l].
      * cbn in Ln. lia.
      * destruct (C [(f, r)] y l eq_refl s1 [(if ok then Some f1 else None, ret)]) as (X & _); [cbn [rounds]; rewrite P; reflexivity|exact X].
    + intros l1 x l2 E s3 o3 R3. destruct (C ((f, r) :: l1) x l2) with (s1 := s3) (o1 := (if ok then Some f1 else None, ret) :: o3) as (X1 & X2 & X3).
      * rewrite E. reflexivity.
      * cbn [rounds]. rewrite P, R3. reflexivity.
      * split; [exact X1|]. split; [|exact X3]. cbn [List.length] in X2. rewrite Q2, W.
        replace (wall s + d + d * Z.of_nat (List.length l1)) with (wall s + d * Z.of_nat (S (List.length l1))) by lia. exact X2.
Qed.
Print Assumptions C65_cadence.

(* The interval in force is the one configured or lies between the smallest
   and the greatest distance of frames handed on. Partial: from a camera that
   has handed on nothing yet (C65_pause_refuted). *)
Theorem C65_rate_partial : forall a b l s s' o, ccnt s = 0 -> csum s = 0 -> 0 <= cdur s < 2 ^ 31 ->
  rounds s l = Some (s', o) -> 0 <= a -> b < 2 ^ 31 -> spaced a b (times o) ->
  cdur s' = cdur s \/ a <= cdur s' <= b.
Proof.
  intros a b l s s' o C S0 D R A B Sp. pose proof (rounds_meter _ _ _ _ R) as M.
  assert (I0 : minv a b (cdur s) (meterOf s)).
  { unfold minv, meterOf. cbn [cnt sum mdur]. rewrite C, S0. repeat split; try lia. }
  pose proof (meterAt_inv a b (cdur s) (times o) (meterOf s) (lastT s) A B D I0 Sp) as X. rewrite <- M in X.
  unfold meterOf in X. cbn [cnt mdur] in X. destruct X as (_ & _ & _ & _ & X); [lia|exact X].
Qed.
Print Assumptions C65_rate_partial.

(* A camera whose frames come every d microseconds: from the 130th frame on
   the interval in force is d, or the one configured if that differs from d
   by no more than a 128th. *)
Theorem C65_lock_partial : forall n x d l s s' o, ccnt s = 0 -> csum s = 0 -> 0 <= cdur s < 2 ^ 31 -> 0 <= d < 2 ^ 31 ->
  rounds s l = Some (s', o) -> times o = regular x d (129 + n) ->
  cdur s' = d \/ (cdur s' = cdur s /\ Z.abs (cdur s - d) <= cdur s / 128).
Proof.
  intros n x d l s s' o C S0 D Dd R T. pose proof (rounds_meter _ _ _ _ R) as M. rewrite T in M.
  pose proof (meterAt_lock n x d (meterOf s) (lastT s) Dd D C S0) as (_ & _ & X). change (S (128 + n)) with (129 + n)%nat in X.
  rewrite <- M in X. exact X.
Qed.
Print Assumptions C65_lock_partial.

(* A capture filter just made, once it is configured: its camera has handed on
   nothing yet, so the two theorems above hold of it. *)
Theorem C65_from_new : forall t c l s' o, 0 <= dur c < 2 ^ 31 -> rounds (reconfigured (capt0 t) c) l = Some (s', o) ->
  (forall a b, 0 <= a -> b < 2 ^ 31 -> spaced a b (times o) -> cdur s' = dur c \/ a <= cdur s' <= b) /\
  (forall n x d, 0 <= d < 2 ^ 31 -> times o = regular x d (129 + n) -> cdur s' = d \/ (cdur s' = dur c /\ Z.abs (dur c - d) <= dur c / 128)).
Proof.
  intros t c l s' o D R. split.
  - intros a b A B S. exact (C65_rate_partial a b l (reconfigured (capt0 t) c) s' o eq_refl eq_refl D R A B S).
  - intros n x d Dd T. exact (C65_lock_partial n x d l (reconfigured (capt0 t) c) s' o eq_refl eq_refl D Dd R T).
Qed.
Print Assumptions C65_from_new.

(* From any past: the interval settles to within a 128th of d after a number
   of frames that depends on the past. *)
Theorem C65_settle_partial : forall x d n l s s' o, ccnt s = 129 -> 0 <= csum s < 2 ^ 37 -> 0 <= cdur s -> 0 <= d < 2 ^ 29 ->
  rounds s l = Some (s', o) -> lastT s = x - d -> times o = regular x d n -> Z.abs (csum s - 128 * d) <= Z.of_nat n ->
  Z.abs (cdur s' - d) <= cdur s' / 128.
Proof.
  intros x d n l s s' o C S0 D Dd R L T N. pose proof (rounds_meter _ _ _ _ R) as M. rewrite T in M.
  destruct (meterAt_settle n x d (meterOf s) (lastT s) Dd D C S0 ltac:(lia)) as (_ & _ & X).
  - unfold away, meterOf. cbn [sum]. lia.
  - cbv zeta in X. rewrite <- M in X. exact X.
Qed.
Print Assumptions C65_settle_partial.

(* If the driver always takes buffers back it keeps the ones it was given. *)
Theorem C65_buffers_partial : forall l s s' o, rounds s l = Some (s', o) -> (forall f r, In (f, r) l -> rQ r = true) ->
  Permutation (queue s) (queue s').
Proof. exact rounds_queue. Qed.
Print Assumptions C65_buffers_partial.

(* A round that hands on nothing changes no measurement. *)
Theorem C65_nothing : forall s f r s' f' ret, doProcessFrame s f r = Done s' f' false ret ->
  cdur s' = cdur s /\ ccnt s' = ccnt s /\ csum s' = csum s /\ lastT s' = lastT s.
Proof.
  intros s f r s' f' ret H. unfold doProcessFrame in H. destruct (st (ccam s)); try (injection H as <- <- <-; auto; fail).
  destruct (getFrame (ccam s) (queue s) f r); try discriminate. injection H as <- <- <-. auto.
Qed.
Print Assumptions C65_nothing.

(* ---- What does not hold ------------------------------------------------- *)

(* A buffer that is not taken back is lost; when all are, there is never a
   frame again. *)
Theorem C65_lost_refuted : forall s, queue s = [] -> forall l s' o, rounds s l = Some (s', o) -> forall x, In x o -> fst x = None.
Proof. intros s Q l s' o R. exact (proj2 (rounds_empty l s s' o Q R)). Qed.
Print Assumptions C65_lost_refuted.

Definition camera (f : fourcc) (w h bpl : Z) (k : VCodecType) : cam :=
  mkCam SCapture 7 [mkB 0 614400; mkB 1 614400; mkB 2 614400; mkB 3 614400] (mkF w h f bpl) (pixelType f) k true 40000 [] 4.
Definition small : capt := mkC (camera FYuyv 2 1 4 RAW) 0 0 0 0 [0; 1; 2; 3]%nat.
Definition blank : vframe := mkV 4 [9; 9; 9; 9] 0 (0, 0) P_NONE 0.
Definition rd (t : Z) (i : nat) (q : bool) : round := mkRd t t t SelReady (Some i) [1; 2; 3; 4] q.
Example C65_lost_case : match rounds small [(blank, rd 40000 0 false); (blank, rd 80000 1 false); (blank, rd 120000 2 false); (blank, rd 160000 3 false)] with
  | Some (s', _) => queue s' = [] | None => False end.
Proof. reflexivity. Qed.

(* After a pause of the camera, for it to be configured again say, the pause
   is measured as an interval and, if the camera had handed on its first 129
   frames, becomes the interval in force, divided by 128. *)
Theorem C65_pause_refuted : forall s c f r s' f' ret,
  128 < ccnt s -> 0 <= csum s -> 0 <= dur c -> doProcessFrame (reconfigured s c) f r = Done s' f' true ret ->
  let pause := t3 r - lastT s in
  256 * dur c < pause -> csum s + pause < 128 * 2 ^ 31 ->
  pause / 128 <= cdur s'.
Proof.
  intros s c f r s' f' ret C S0 D H pause P B. unfold doProcessFrame in H. cbn [reconfigured ccam] in H. destruct (st c); try discriminate.
  destruct (getFrame _ _ f r); try discriminate. cbv zeta in H. injection H as <- _ _. unfold cdur. cbn [ccam dur setDur].
  unfold reconfigured, meterOf, cdur. cbn [ccnt csum ccam lastT]. fold pause. unfold tick, getAvg. cbn [cnt sum mdur].
  destruct (Z.leb_spec (ccnt s) 128) as [X|_]; [lia|]. rewrite (Z.quot_div_nonneg (csum s)) by lia.
  assert (csum s / 128 <= csum s) by (apply Z.div_le_upper_bound; lia). pose proof (Z.div_pos (csum s) 128 ltac:(lia) ltac:(lia)).
  set (v := csum s - csum s / 128 + pause) in *. assert (V : pause <= v < 128 * 2 ^ 31) by (unfold v; lia).
  rewrite !Z.quot_div_nonneg by lia.
  assert (V2 : pause / 128 <= v / 128) by (apply Z.div_le_mono; lia).
  assert (V3 : v / 128 < 2 ^ 31) by (apply Z.div_lt_upper_bound; lia).
  assert (V4 : 2 * dur c <= pause / 128) by (apply Z.div_le_lower_bound; lia).
  rewrite int32_id by lia.
  assert (dur c / 128 <= dur c) by (apply Z.div_le_upper_bound; lia).
  destruct (Z.ltb_spec (dur c / 128) (Z.abs (dur c - v / 128))) as [Y|Y]; cbn [mdur]; [exact V2|].
  assert (0 < dur c -> dur c / 128 < dur c) by (intros; apply Z.div_lt; lia). lia.
Qed.
Print Assumptions C65_pause_refuted.
(* One hour's pause at 25 frames per second: frames every 28 seconds. *)
Example C65_pause_case : let s := mkC (camera FYuyv 2 1 4 RAW) 129 (128 * 40000) 1000000 1000000 [0; 1; 2; 3]%nat in
  match doProcessFrame (reconfigured s (camera FYuyv 2 1 4 RAW)) blank (rd 3601000000 0 true) with
  | Done s' _ true _ => cdur s' = 28164687
  | _ => False
  end.
Proof. vm_compute. reflexivity. Qed.

(* YUV420: only the luminance is copied; the rest of the frame is what it was. *)
Theorem C65_planar_refuted : forall s f r s' f' ret, fits s f r -> doProcessFrame s f r = Done s' f' true ret ->
  ff (fmt (ccam s)) = FYuv420 -> fbpl (fmt (ccam s)) = lineBytes FYuv420 (fw (fmt (ccam s))) ->
  let n := Z.to_nat (fw (fmt (ccam s)) * fh (fmt (ccam s))) in
  skipn n (bytes f') = skipn n (bytes f).
Proof.
  intros s f r s' f' ret (F0 & F1 & F2) H K B n.
  assert (W : copied (fmt (ccam s)) = fw (fmt (ccam s)) * fh (fmt (ccam s))).
  { unfold copied. rewrite Z.mod_small by exact F0. rewrite B. cbn [lineBytes]. lia. }
  unfold doProcessFrame in H. destruct (st (ccam s)); try discriminate.
  unfold getFrame in H. destruct (rSel r) eqn:Se; try discriminate. unfold readFrame in H. destruct (rDq r) as [i|] eqn:Dq; [|discriminate].
  destruct (existsb (Nat.eqb i) (queue s)) eqn:Ex; [|discriminate]. destruct (_ || _) eqn:O; [discriminate|]. destruct (rQ r) eqn:Q; [|discriminate].
  injection H as <- <- <-. cbn [stamp bytes]. rewrite W. fold n.
  assert (L : List.length (firstn n (rData r)) = n). { rewrite firstn_length. unfold n. rewrite B in F1. cbn [lineBytes] in F1. lia. }
  rewrite skipn_app, L, Nat.sub_diag. rewrite <- L at 1. rewrite skipn_all. reflexivity.
Qed.
Print Assumptions C65_planar_refuted.

(* Coded formats, for which the driver has no bytes per line: nothing is
   copied. And the length of a frame is never set. *)
Theorem C65_coded_refuted : forall s f r s' f' ok ret, doProcessFrame s f r = Done s' f' ok ret ->
  flen f' = flen f /\ (fbpl (fmt (ccam s)) = 0 -> bytes f' = bytes f).
Proof.
  intros s f r s' f' ok ret H. unfold doProcessFrame in H. destruct (st (ccam s)); try (injection H as <- <- <- <-; auto; fail).
  unfold getFrame in H. destruct (rSel r) eqn:Se; try (injection H as <- <- <- <-; auto; fail).
  unfold readFrame in H. destruct (rDq r) as [i|] eqn:Dq; [|injection H as <- <- <- <-; auto].
  destruct (existsb (Nat.eqb i) (queue s)) eqn:Ex; [|injection H as <- <- <- <-; auto]. destruct (_ || _) eqn:O; [discriminate|].
  assert (X : fbpl (fmt (ccam s)) = 0 -> copied (fmt (ccam s)) = 0). { intros E. unfold copied. rewrite E, Z.mul_0_r. reflexivity. }
  destruct (rQ r) eqn:Q; injection H as <- <- <- <-; cbn [stamp bytes flen]; (split; [reflexivity|]); intros E; rewrite (X E); reflexivity.
Qed.
Print Assumptions C65_coded_refuted.

(* Pictures larger than 1920 x 1080 overrun the frame made for them. *)
Theorem C65_overrun_refuted : forall s f r w h,
  fmt (ccam s) = mkF w h FYuyv (2 * w) -> opix (ccam s) = YUYV422 -> ocodec (ccam s) = RAW -> st (ccam s) = SCapture ->
  (exists k, writer (ccam s) = Some (k, room f)) -> 0 <= w -> 0 <= h -> 2 * w * h < 2 ^ 32 ->
  2 * w * h <= Z.of_nat (List.length (rData r)) -> brings s r ->
  (doProcessFrame s f r = Broken <-> 1920 * 1080 < w * h).
Proof.
  intros s f r w h Fm Px Kd S1 (k & Wr) W H B L (Se & (i & Dq & Ex) & Q).
  unfold writer in Wr. rewrite S1, Kd, Px in Wr. injection Wr as _ Rm.
  rewrite (process_capture s f r S1). unfold getFrame. rewrite Se. unfold readFrame. rewrite Dq. apply existsb_in in Ex. rewrite Ex.
  assert (Cp : copied (fmt (ccam s)) = 2 * w * h). { unfold copied. rewrite Fm. cbn [fh fbpl]. rewrite Z.mod_small by nia. lia. }
  rewrite Cp, <- Rm. unfold rawBytes. destruct (Z.ltb_spec (Z.of_nat (List.length (rData r))) (2 * w * h)); [lia|]. cbn [orb].
  destruct (Z.ltb_spec (1920 * 1080 * 2) (2 * w * h)) as [X|X]; [split; [intros _; lia|reflexivity]|].
  rewrite Q. cbv zeta. split; [discriminate|lia].
Qed.
Print Assumptions C65_overrun_refuted.

(* Cases *)
Example C65_case : exists s' f', doProcessFrame small blank (rd 40000 2 true) = Done s' f' true 40000
  /\ bytes f' = [1; 2; 3; 4] /\ pts f' = 40000 /\ queue s' = [0; 1; 3; 2]%nat /\ fits small blank (rd 40000 2 true) /\ brings small (rd 40000 2 true).
Proof.
  do 2 eexists. split; [reflexivity|]. repeat (split; [reflexivity|]). split; [unfold fits; cbn; lia|].
  split; [reflexivity|]. split; [exists 2%nat; split; [reflexivity|cbn; auto]|reflexivity].
Qed.
Fixpoint many (t : Z) (n : nat) : list (vframe * round) :=
  match n with O => [] | S k => (blank, rd t 0 true) :: many (t + 33333) k end.
Example C65_lock_case : match rounds small (many 5000 130) with Some (s', o) => times o = regular 5000 33333 129 /\ cdur s' = 33333 | None => False end.
Proof. vm_compute. split; reflexivity. Qed.
Example C65_from_new_case : small = reconfigured (capt0 0) (camera FYuyv 2 1 4 RAW) /\ 0 <= dur (camera FYuyv 2 1 4 RAW) < 2 ^ 31.
Proof. split; [reflexivity|cbn; lia]. Qed.
