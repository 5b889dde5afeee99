(** C88: the manifest says what is published. *)
From Coq Require Import Ascii String.
From Verif Require Import Base Bytes JsonModel CtlModel MpdModel MpdSpec MpdProofs MxmModel MxmSpec MxmProofs.
Local Open Scope string_scope.
Local Open Scope list_scope.
Local Open Scope Z_scope.

(** The file written after a history of calls, read by a player. *)
Definition playerSees (h : list op) (now : str) : option manifest := readManifest (fst (writeToDisk now (run h newMpd))).

(** After every history that starts with a configuration, the file written is XML a player can read, and in it the player finds the
    configuration, the date of the first file, the segment names and times, and each stream once as it was last described.
    The greatest width and height and the frame rate are what the code makes of them: see below. *)
Theorem C88_manifest_tells_history : forall b0 n0 d0 l now, let h := Configure b0 n0 d0 :: l in
  Forall proper h -> clean now ->
  let '(b, n, d) := configured h (0, 0, 0) in
  exists M, playerSees h now = Some M /\
    updatePeriod M = d /\ shiftDepth M = Z.max 2 n * d /\ bufferTime M = Z.min (Z.max 2 n * d) (Z.max b (2 * d)) /\ startTime M = firstWritten h now /\
    (match lastTold V h with
     | None => video M = None
     | Some (scale, base) => exists v, video M = Some v /\
         vSegs v = mkSegs scale (base ++ lit "_$RepresentationID$_$Time$.m4v") (base ++ lit "_$RepresentationID$_init.m4v") (stamped V h 2 false []) /\
         lists (vStreams v) (videoNow h) /\ maxWidth v = widest h /\ maxHeight v = highest h /\ frameRate v = 0
     end) /\
    (match lastTold A h with
     | None => audio M = None
     | Some (scale, base) => exists a, audio M = Some a /\
         aSegs a = mkSegs scale (base ++ lit "_$RepresentationID$_$Time$.m4a") (base ++ lit "_$RepresentationID$_init.m4a") (stamped A h 2 false []) /\
         lists (aStreams a) (audioNow h)
     end).
Proof.
  intros b0 n0 d0 l now h P C.
  assert (HC : cfg (run h newMpd) (configured h (0, 0, 0))).
  { inversion P; subst; unfold h; rewrite run_cons, configured_cons; apply cfg_run; auto; now apply cfg_new. }
  destruct (configured h (0, 0, 0)) as [[b n] d]; destruct HC as (_ & Ep & Ed & Eb & Rb & Rd & Ro).
  assert (Hpos : 2 * d <= Z.max 2 n * d) by (apply Z.mul_le_mono_nonneg_r; lia).
  pose proof (okM_run h newMpd P okM_new) as OK; pose proof OK as (OS & OV & OA).
  unfold playerSees, writeToDisk; cbn [fst].
  set (start := match mStart (run h newMpd) with Some s => s | None => now end).
  assert (Es : start = firstWritten h now) by (unfold start; now rewrite start_run).
  assert (Cs : clean start) by (unfold start; destruct (mStart (run h newMpd)); auto).
  eexists; split; [apply (read_manifest start _ d (Z.max 2 n * d)); auto; unfold u64; try lia|].
  cbn [updatePeriod shiftDepth bufferTime startTime video audio].
  split; [reflexivity|]; split; [reflexivity|]; split; [exact Eb|]; split; [exact Es|].
  pose proof (times_run V h newMpd 2 false [] P ltac:(cbn; lia) eq_refl eq_refl ltac:(auto)) as TV.
  pose proof (times_run A h newMpd 2 false [] P ltac:(cbn; lia) eq_refl eq_refl ltac:(auto)) as TA.
  pose proof (vTold_run h newMpd None eq_refl) as HV; pose proof (aTold_run h newMpd None eq_refl) as HA.
  pose proof (wide_run h newMpd) as W; pose proof (high_run h newMpd) as Hh.
  pose proof (fun i => vLook_run h i P) as LV; pose proof (fun i => aLook_run h i P) as LA.
  change (vTold (run h newMpd) (lastTold V h)) in HV; change (aTold (run h newMpd) (lastTold A h)) in HA; change (wOf newMpd) with 0 in W; change (hOf newMpd) with 0 in Hh; fold (widest h) in W; fold (highest h) in Hh.
  split.
  - destruct (lastTold V h) as [[k base]|]; cbn [vTold] in HV; [|now rewrite HV].
    destruct HV as (x & E & E1 & E2 & E3); unfold tOf in TV; unfold wOf in W; unfold hOf in Hh; unfold vLook in LV; rewrite E in *; cbn [option_map optP] in *.
    exists (videosOf x); split; [reflexivity|]; destruct OV as (_ & _ & _ & _ & _ & _ & Q7 & Q8 & Q9).
    unfold videosOf; cbn [vSegs vStreams maxWidth maxHeight frameRate]; split; [rewrite E1, E2, E3, TV; reflexivity|]; split; [|auto].
    apply (lists_of vOf okVR); auto; [intros y Hy; apply Hy|intros i y Hy; eapply videoNow_small; eauto].
  - destruct (lastTold A h) as [[k base]|]; cbn [aTold] in HA; [|now rewrite HA].
    destruct HA as (x & E & E1 & E2 & E3); unfold tOf in TA; unfold aLook in LA; rewrite E in *; cbn [option_map optP] in *.
    exists (audiosOf x); split; [reflexivity|]; destruct OA as (_ & _ & _ & _ & Q8 & Q9).
    unfold audiosOf; cbn [aSegs aStreams]; split; [rewrite E1, E2, E3, TA; reflexivity|].
    apply (lists_of aOf okAR); auto; [intros y Hy; apply Hy|intros i y Hy; eapply audioNow_small; eauto].
Qed.

(** The start of availability is the same in all files: that of the first one. *)
Theorem C88_start_time_is_kept : forall b0 n0 d0 h h' now now', Forall proper (Configure b0 n0 d0 :: h ++ Write now :: h') -> clean now' ->
  exists M M', playerSees (Configure b0 n0 d0 :: h) now = Some M /\ playerSees (Configure b0 n0 d0 :: h ++ Write now :: h') now' = Some M' /\ startTime M' = startTime M.
Proof.
  intros b0 n0 d0 h h' now now' P C.
  assert (P1 : Forall proper (Configure b0 n0 d0 :: h)) by (inversion P as [|? ? P0 P1]; subst; apply Forall_app in P1; constructor; tauto).
  assert (C1 : clean now) by (inversion P as [|? ? P0 P2]; subst; apply Forall_app in P2 as [_ P2]; now inversion P2).
  pose proof (C88_manifest_tells_history b0 n0 d0 h now P1 C1) as H1; pose proof (C88_manifest_tells_history b0 n0 d0 (h ++ Write now :: h') now' P C) as H2; cbv zeta in H1, H2.
  destruct (configured (Configure b0 n0 d0 :: h) _) as [[? ?] ?]; destruct (configured (Configure b0 n0 d0 :: h ++ _) _) as [[? ?] ?].
  destruct H1 as (M & E & _ & _ & _ & S1 & _); destruct H2 as (M' & E' & _ & _ & _ & S2 & _); exists M, M'; repeat split; auto.
  rewrite S1, S2; cbn [firstWritten]; clear; induction h as [|o h IH]; [reflexivity|]; destruct o; cbn [firstWritten app]; auto.
Qed.

(** No manifest tells the frame rate of its video: it is always 0. *)
Theorem C88_frame_rate_is_told_refuted : forall b0 n0 d0 l now, Forall proper (Configure b0 n0 d0 :: l) -> clean now ->
  exists M, playerSees (Configure b0 n0 d0 :: l) now = Some M /\ forall v, video M = Some v -> frameRate v = 0.
Proof.
  intros b0 n0 d0 l now P C; pose proof (C88_manifest_tells_history b0 n0 d0 l now P C) as H; cbv zeta in H.
  destruct (configured _ _) as [[? ?] ?]; destruct H as (M & E & _ & _ & _ & _ & HV & _); exists M; split; auto; intros v Ev.
  destruct (lastTold V _) as [[? ?]|]; [destruct HV as (v' & E' & _ & _ & _ & _ & F); congruence|congruence].
Qed.

Definition date : str := lit "2026-01-01T00:00:00".
Definition base : str := lit "a&b ""x""".
Definition sample : list op :=
  [Configure 6 3 2; Video 12800 base 7 (lit "avc1.42c01e") 1920 1080 4000000; Stamp V 25600 25600; Audio 48000 base 9 (lit "mp4a.40.2") 48000 128000 2; Stamp A 96000 96256; Write date;
   Video 12800 base 12 (lit "hev1") 640 360 500000; Stamp V 51200 25600; Video 12800 base 7 (lit "avc1.42c01e") 1280 720 3000000; Stamp V 76800 25600; Stamp V 102400 25600].
Example sample_proper : Forall proper sample.
Proof. unfold sample, base; repeat constructor; vm_compute; intuition discriminate. Qed.
Example sample_read : playerSees sample (lit "later") = Some (mkM 2 6 6 date
  (Some (mkVs (mkSegs 12800 (lit "a&b ""x""_$RepresentationID$_$Time$.m4v") (lit "a&b ""x""_$RepresentationID$_init.m4v") [(51200, 25600); (76800, 25600); (102400, 25600)]) 1920 1080 0
              [(12, mkVS (lit "hev1") 640 360 500000); (7, mkVS (lit "avc1.42c01e") 1280 720 3000000)]))
  (Some (mkAs (mkSegs 48000 (lit "a&b ""x""_$RepresentationID$_$Time$.m4a") (lit "a&b ""x""_$RepresentationID$_init.m4a") [(96000, 96256)]) [(9, mkAS (lit "mp4a.40.2") 48000 128000 2)]))).
Proof. vm_compute; reflexivity. Qed.

(** The greatest width is not that of the streams that are there: it never falls. *)
Theorem C88_greatest_width_refuted : exists h M v, Forall proper h /\ playerSees h date = Some M /\ video M = Some v /\ vStreams v <> [] /\ Forall (fun x => vWidth (snd x) < maxWidth v) (vStreams v).
Proof.
  exists [Configure 6 3 2; Video 12800 (lit "a") 7 (lit "hev1") 1920 1080 1; Video 12800 (lit "a") 7 (lit "hev1") 640 360 1]; eexists; eexists.
  split; [repeat constructor; vm_compute; intuition discriminate|]; split; [vm_compute; reflexivity|]; split; [reflexivity|]; split; [discriminate|]; repeat constructor.
Qed.
(** When the last stream of a side goes, its set stays in the manifest without any stream. *)
Theorem C88_empty_set_goes_refuted : exists h M v, Forall proper h /\ playerSees h date = Some M /\ video M = Some v /\ vStreams v = [].
Proof.
  exists [Configure 6 3 2; Video 12800 (lit "a") 7 (lit "hev1") 1920 1080 1; Remove V 7]; eexists; eexists.
  split; [repeat constructor; vm_compute; intuition discriminate|]; split; [vm_compute; reflexivity|]; split; reflexivity.
Qed.
(** Two audio streams of different rates: the segments are told in units of the first (two seconds are 96000 of 48000), the scale is
    that of the last. *)
Theorem C88_times_match_scale_refuted : exists M a, let h := [Configure 6 3 2; Audio 48000 (lit "a") 3 (lit "mp4a.40.2") 48000 1 2; Audio 44100 (lit "a") 5 (lit "mp4a.40.2") 44100 1 2; Stamp A 0 96000] in
  Forall proper h /\ playerSees h date = Some M /\ audio M = Some a /\ times (aSegs a) = [(0, 2 * 48000)] /\ timescale (aSegs a) = 44100.
Proof.
  eexists; eexists; split; [repeat constructor; vm_compute; intuition discriminate|]; split; [vm_compute; reflexivity|]; split; [reflexivity|]; split; reflexivity.
Qed.
(** A base name with a control character is read as another name. *)
Theorem C88_any_base_name_refuted : exists b M v, let h := [Configure 6 3 2; Video 12800 b 7 (lit "hev1") 1920 1080 1] in
  playerSees h date = Some M /\ video M = Some v /\ media (vSegs v) <> b ++ lit "_$RepresentationID$_$Time$.m4v".
Proof. exists ["a"%char; ascii_of_N 9; "b"%char]; eexists; eexists; split; [vm_compute; reflexivity|]; split; [reflexivity|]; vm_compute; discriminate. Qed.

Print Assumptions C88_manifest_tells_history.
Print Assumptions C88_start_time_is_kept.
Print Assumptions C88_frame_rate_is_told_refuted.
Print Assumptions C88_greatest_width_refuted.
Print Assumptions C88_empty_set_goes_refuted.
Print Assumptions C88_times_match_scale_refuted.
Print Assumptions C88_any_base_name_refuted.
