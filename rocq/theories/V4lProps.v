(* C64: configuring and releasing a camera. *)
From Coq Require Import ZArith List Bool String Lia.
From Verif Require Import NamesModel JsonModel V4lModel V4lSpec V4lProofs.
From Verif Require CtlModel CtlSpec CtlProofs.
Import ListNotations.
Local Open Scope Z_scope.
Local Open Scope list_scope.

(* A camera whose past is a history of calls during which unmapping never
   failed. *)
Definition past (c : cam) (l : list call) : Prop := (forall k, In k l -> tidy (callEnv k)) /\ run cam0 l = Some c.

(* A camera that is there, gives what it is asked for, in 4 buffers *)
Definition good : env :=
  mkEnv true true (Some 7) true true true (fun w h f => Some (mkF w h f (2 * w))) (Some (mkF 640 480 FYuyv 1280))
        (fun d => Some (1, d)) (Some 4%nat) true (fun _ => Some 614400) (fun _ => true) (fun _ => true) true true (fun _ => true).

(* The camera an answer leaves. *)
Definition left (a : answer) : cam := match a with Ret c _ => c | Crash => cam0 end.

Lemma past_inv : forall c l, past c l -> (st c = SClose \/ st c = SCapture) /\ exists L, inv c L
  /\ ((forall k, In k l -> mapsWell (callEnv k)) -> L = []).
Proof. intros c l [T R]. exact (run_inv l cam0 [] c inv0 (or_introl eq_refl) T R). Qed.

(* Configuring a closed camera succeeds exactly if the system grants each
   thing that is needed, and then the camera captures with what was granted.
   Partial: without the case of a rate with denominator 0, which is a crash
   (C64_zero_refuted). *)
Theorem C64_configure_partial : forall l c e name w h fps format forced,
  past c l -> st c = SClose -> tidy e ->
  ((exists c', configure c e name w h fps format forced = Ret c' true)
     <-> exists d f num den n, grants e w h fps format forced d f num den n /\ den <> 0)
  /\ (forall c' d f num den n, configure c e name w h fps format forced = Ret c' true ->
        grants e w h fps format forced d f num den n ->
        st c' = SCapture /\ fd c' = d /\ List.length (bufs c') = n /\ fmt c' = f /\ dur c' = 1000000 / den
        /\ opix c' = pixelType (ff f)).
Proof.
  intros l c e name w h fps format forced P H T. destruct (past_inv _ _ P) as (_ & L & I0 & _).
  pose proof (configure_closed c L e name w h fps format forced I0 H T) as X. split; [split|].
  - intros (c' & E). rewrite E in X. destruct X as (d & f & num & den & n & G & NZ & _). eauto 8.
  - intros (d & f & num & den & n & G & NZ). destruct (configure c e name w h fps format forced) as [|c' [|]].
    + destruct X as (d' & f' & num' & n' & G'). destruct (grants_det _ _ _ _ _ _ _ _ _ _ _ _ _ _ _ _ G G') as (_ & _ & _ & E & _). congruence.
    + eauto.
    + destruct X as (_ & _ & X). exfalso. apply X. eauto 8.
  - intros c' d f num den n E G. rewrite E in X. destruct X as (d' & f' & num' & den' & n' & G' & NZ & _ & H' & D & Ln & Fm & Px & _ & Du).
    destruct (grants_det _ _ _ _ _ _ _ _ _ _ _ _ _ _ _ _ G G') as (-> & -> & -> & -> & ->). auto 8.
Qed.
Print Assumptions C64_configure_partial.

(* Whatever the history, a camera is closed or capturing. If it is closed it
   holds nothing; if it captures it holds the device and its buffers, all
   mapped, and nothing else. Partial: if unmapping and mapping the announced
   buffers never fail (C64_unmap_refuted, C64_leak_refuted). *)
Theorem C64_holds_partial : forall l c, past c l -> (forall k, In k l -> mapsWell (callEnv k)) ->
  (st c = SClose /\ holdsNothing c) \/ (st c = SCapture /\ holdsCapture c).
Proof.
  intros l c P W. destruct (past_inv _ _ P) as (H & L & I0 & E). rewrite (E W) in I0. destruct H as [H|H].
  - left. split; [exact H|]. now apply inv_nothing.
  - right. split; [exact H|]. now apply inv_capture.
Qed.
Print Assumptions C64_holds_partial.

(* Even if mapping fails: the descriptor is open exactly if the camera is not
   closed, and a camera that captures has its buffers mapped. *)
Theorem C64_never_unmapped_partial : forall l c, past c l ->
  opened (log c) [] = match st c with SClose => [] | _ => [fd c] end
  /\ (st c = SCapture -> (2 <= List.length (bufs c))%nat /\ incl (map bmap (bufs c)) (mapped (log c) [])
                         /\ streaming (log c) false = true).
Proof.
  intros l c P. destruct (past_inv _ _ P) as (H & L & I0 & _). destruct I0 as [A B C D E F]. split; [exact A|].
  intros S1. unfold live in *. rewrite S1 in *. split; [exact F|]. split; [|exact E]. rewrite B. intros x X. apply in_or_app. auto.
Qed.
Print Assumptions C64_never_unmapped_partial.

(* The answer of configure tells the state: true, it captures; false, it is
   closed. *)
Theorem C64_answer_partial : forall l c e name w h fps format forced c' ok,
  past c l -> tidy e -> configure c e name w h fps format forced = Ret c' ok -> st c' = if ok then SCapture else SClose.
Proof.
  intros l c e name w h fps format forced c' ok P T E. destruct (past_inv _ _ P) as ([H|H] & L & I0 & _).
  - pose proof (configure_closed c L e name w h fps format forced I0 H T) as X. rewrite E in X. destruct ok.
    + destruct X as (? & ? & ? & ? & ? & ? & ? & ? & X & _). exact X.
    + apply X.
  - pose proof (configure_capture c L e name w h fps format forced I0 H T) as X. rewrite E in X. destruct ok; apply X.
Qed.
Print Assumptions C64_answer_partial.

(* Releasing: it fails only if the device cannot be stopped, and then nothing
   changes; otherwise the camera is closed. *)
Theorem C64_release_partial : forall l c e, past c l -> tidy e ->
  let '(c', ok) := releaseDevice c e in
  (ok = false <-> st c = SCapture /\ aOff e = false) /\ (ok = false -> c' = c) /\ (ok = true -> st c' = SClose).
Proof.
  intros l c e P T. destruct (past_inv _ _ P) as (H & L & I0 & _).
  destruct (releaseDevice c e) as [c' ok] eqn:R. destruct (release_inv _ _ _ _ _ I0 T R) as (I1 & A & B).
  split; [split|split].
  - intros E. destruct (B E) as (_ & X). exact X.
  - intros [S1 O1]. unfold releaseDevice in R. rewrite S1 in R. unfold stopCapturing in R. rewrite S1, O1 in R. congruence.
  - intros E. apply (B E).
  - exact A.
Qed.
Print Assumptions C64_release_partial.

(* The state of a camera just configured shows the size and format granted
   and the rate granted, for rates of 1 to 1000 frames per second whose
   interval is given as 1/den; a connection gets frames of that format. *)
Theorem C64_state_partial : forall l c e name w h fps format forced c' d f num den n,
  past c l -> st c = SClose -> tidy e -> configure c e name w h fps format forced = Ret c' true ->
  grants e w h fps format forced d f num den n -> 1 <= den <= 1000 ->
  exists device, getState c' = Some (mkR "capture" (Some (device, fw f, fh f, den, formatName (ff f)))).
Proof.
  intros l c e name w h fps format forced c' d f num den n P H T E G B.
  destruct (C64_configure_partial l c e name w h fps format forced P H T) as (_ & X).
  destruct (X _ _ _ _ _ _ E G) as (S1 & _ & _ & Fm & Du & _). unfold getState. rewrite S1, Fm, Du.
  assert (Q : 0 < 1000000 / den) by (apply Z.div_str_pos; lia).
  destruct (Z.eqb_spec (1000000 / den) 0); [lia|]. rewrite Z.quot_div_nonneg by lia. rewrite fps_back by exact B. eauto.
Qed.
Print Assumptions C64_state_partial.

(* Asking through the control interface is asking directly, with YUYV and a
   forced format if not said otherwise. *)
Theorem C64_event : forall c e p name w h fps,
  CtlSpec.member p "device" (Val VT_STRING name) ->
  CtlSpec.number p "width" w -> CtlSpec.number p "height" h -> CtlSpec.number p "fps" fps -> 0 <= w -> 0 <= h -> 0 <= fps ->
  (forall format b, CtlSpec.member p "format" (Val VT_STRING format) ->
     CtlSpec.member p "forceformat" (Val VT_BOOL (lit (if b : bool then "true" else "false"))) ->
     configureEvent c e p = Configures (configure c e (string_of_list_ascii name) w h fps (string_of_list_ascii format) b))
  /\ (~ In (lit "format") (map fst p) -> ~ In (lit "forceformat") (map fst p) ->
     configureEvent c e p = Configures (configure c e (string_of_list_ascii name) w h fps "YUYV" true)).
Proof.
  intros c e p name w h fps D W H F W0 H0 F0.
  assert (U : forall s z, CtlSpec.number p s z -> 0 <= z -> exists t, CtlModel.get s p = Some (Val VT_NUMBER t) /\ unsigned (CtlModel.toIntText t) = z).
  { intros s z N P0. destruct (CtlProofs.number_get _ _ _ N) as (t & A & B). exists t. split; [exact A|]. rewrite B. unfold unsigned.
    apply Z.mod_small. destruct N as (q & _ & (I1 & _)). unfold CtlSpec.int32 in I1. lia. }
  destruct (U _ _ W W0) as (tw & W1 & W2), (U _ _ H H0) as (th & H1 & H2), (U _ _ F F0) as (tf & F1 & F2).
  unfold configureEvent. rewrite (CtlProofs.child_member _ _ _ D), W1, H1, F1. cbn [CtlModel.isNum andb CtlModel.nodeText CtlModel.toInt toString].
  split.
  - intros format b M1 M2. rewrite (CtlProofs.child_member _ _ _ M1), (CtlProofs.child_member _ _ _ M2).
    cbn [isBool CtlModel.nodeText toString]. rewrite W2, H2, F2. destruct b; reflexivity.
  - intros M1 M2. unfold CtlModel.get. rewrite (child_absent _ _ M2), (child_absent _ _ M1). rewrite W2, H2, F2. reflexivity.
Qed.
Print Assumptions C64_event.

(* ---- What does not hold ------------------------------------------------- *)

(* A camera that captures cannot be given another rate, format or device: it
   is closed or asked for YUYV at one frame per second (or, if the format is
   not to be forced, at 0), whatever was requested. *)
Theorem C64_reconfigure_refuted : forall l c e name w h fps format forced c' ok,
  past c l -> st c = SCapture -> tidy e -> configure c e name w h fps format forced = Ret c' ok ->
  exists x, since c c' x /\ forall y, In y x ->
    match y with
    | EvFormat w' h' f => w' = w /\ h' = h /\ f = FYuyv
    | EvRate num den => num = 1 /\ den = (if forced then 1 else 0)
    | EvOpen _ _ => False
    | _ => True
    end.
Proof.
  intros l c e name w h fps format forced c' ok P H T E. destruct (past_inv _ _ P) as (_ & L & I0 & _).
  exact (reconfigure_log c L e name w h fps format forced c' ok I0 H T E).
Qed.
Print Assumptions C64_reconfigure_refuted.
Example C64_reconfigure_case : exists c,
  configure cam0 good "/dev/video0" 640 480 25 "YUYV" true = Ret c true /\ dur c = 40000 /\
  exists c', configure c good "/dev/video0" 640 480 25 "YUYV" true = Ret c' true /\ dur c' = 1000000.
Proof.
  exists (left (configure cam0 good "/dev/video0" 640 480 25 "YUYV" true)). split; [vm_compute; reflexivity|]. split; [vm_compute; reflexivity|].
  exists (left (configure (left (configure cam0 good "/dev/video0" 640 480 25 "YUYV" true)) good "/dev/video0" 640 480 25 "YUYV" true)).
  split; vm_compute; reflexivity.
Qed.

(* And it crashes if the driver takes a request for 0 frames per second
   literally. *)
Theorem C64_zero_refuted : exists c,
  configure cam0 good "/dev/video0" 640 480 25 "YUYV" true = Ret c true /\
  configure c good "/dev/video0" 640 480 25 "YUYV" false = Crash.
Proof. exists (left (configure cam0 good "/dev/video0" 640 480 25 "YUYV" true)). split; vm_compute; reflexivity. Qed.
Print Assumptions C64_zero_refuted.

(* If the device cannot be stopped, reconfiguring is answered with success;
   nothing was asked of the device, yet another rate is shown from then on. *)
Theorem C64_stop_refuted : forall c e name w h fps format forced,
  st c = SCapture -> aOff e = false -> 0 < fps ->
  exists c', configure c e name w h fps format forced = Ret c' true /\ since c c' [] /\ st c' = SCapture
    /\ fmt c' = fmt c /\ dur c' = 1000000 / fps.
Proof.
  intros c e name w h fps format forced H O1 Fp. unfold configure. cbn [st setForce]. rewrite H. unfold stopCapturing.
  cbn [st setForce]. rewrite H, O1. unfold finish. destruct (Z.eqb_spec fps 0); [lia|]. eexists. split; [reflexivity|].
  unfold since. cbn. rewrite app_nil_r. auto.
Qed.
Print Assumptions C64_stop_refuted.

(* If a buffer cannot be unmapped when the camera is reconfigured, the answer
   is success too, and the next request makes it capture into buffers that
   are not mapped. *)
Definition stuck : env :=
  mkEnv true true (Some 7) true true true (fun w h f => Some (mkF w h f (2 * w))) None
        (fun d => Some (1, d)) (Some 4%nat) true (fun _ => Some 614400) (fun _ => true) (fun _ => true) true true (fun m => negb (m =? 3)).
Theorem C64_unmap_refuted : exists c1 c2 c3,
  configure cam0 stuck "/dev/video0" 640 480 25 "YUYV" true = Ret c1 true /\ holdsCapture c1 /\
  configure c1 stuck "/dev/video0" 640 480 25 "YUYV" true = Ret c2 true /\ st c2 = SInit /\
  configure c2 stuck "/dev/video0" 640 480 25 "YUYV" true = Ret c3 true /\ st c3 = SCapture /\
  map bmap (bufs c3) = [0; 1; 2; 3] /\ mapped (log c3) [] = [3].
Proof.
  set (step := fun c => left (configure c stuck "/dev/video0" 640 480 25 "YUYV" true)).
  exists (step cam0), (step (step cam0)), (step (step (step cam0))). split; [vm_compute; reflexivity|].
  split; [repeat split; vm_compute; (reflexivity || lia)|]. repeat (split; [vm_compute; reflexivity|]). vm_compute. reflexivity.
Qed.
Print Assumptions C64_unmap_refuted.

(* If some of the buffers cannot be mapped, those that were stay mapped for
   ever: the camera is closed and does not know of them. *)
Definition half : env :=
  mkEnv true true (Some 7) true true true (fun w h f => Some (mkF w h f (2 * w))) None
        (fun d => Some (1, d)) (Some 4%nat) true (fun _ => Some 614400) (fun i => (i <? 2)%nat) (fun _ => true) true true (fun _ => true).
Lemma half_step : forall c, st c = SClose -> exists c', configure c half "/dev/video0" 640 480 25 "YUYV" true = Ret c' false
  /\ st c' = SClose /\ since c c' [EvOpen "/dev/video0" 7; EvFormat 640 480 FYuyv; EvRate 1 25; EvMap (nextm c); EvMap (nextm c + 1); EvClose 7].
Proof.
  intros c H. destruct c as [s0 f0 b0 m0 p0 k0 o0 d0 l0 n0]. cbn in H. subst s0. eexists. split; [reflexivity|].
  split; [reflexivity|]. unfold since. cbn. rewrite <- !app_assoc. reflexivity.
Qed.
Theorem C64_leak_refuted : forall n, exists c,
  run cam0 (repeat (Configure half "/dev/video0" 640 480 25 "YUYV" true) n) = Some c
  /\ st c = SClose /\ List.length (mapped (log c) []) = (2 * n)%nat.
Proof.
  intros n. assert (X : forall n c, st c = SClose -> exists c',
      run c (repeat (Configure half "/dev/video0" 640 480 25 "YUYV" true) n) = Some c' /\ st c' = SClose
      /\ List.length (mapped (log c') []) = (2 * n + List.length (mapped (log c) []))%nat).
  { clear n. induction n as [|n IH]; intros c H.
    - exists c. auto.
    - destruct (half_step c H) as (c1 & E & H1 & S1). destruct (IH c1 H1) as (c2 & R & H2 & Ln). exists c2.
      cbn [repeat run run1]. rewrite E. split; [exact R|]. split; [exact H2|]. rewrite Ln, S1, mapped_app. cbn [mapped].
      rewrite !app_length. cbn [List.length]. lia. }
  destruct (X n cam0 eq_refl) as (c & A & B & C). exists c. split; [exact A|]. split; [exact B|]. rewrite C. cbn. lia.
Qed.
Print Assumptions C64_leak_refuted.

(* The name of the device is never in the state. *)
Theorem C64_device_refuted : forall c s d w h r m, getState c = Some (mkR s (Some (d, w, h, r, m))) -> d = EmptyString.
Proof.
  intros c s d w h r m H. unfold getState in H. destruct (st c); try discriminate. destruct (dur c =? 0); [discriminate|]. now injection H.
Qed.
Print Assumptions C64_device_refuted.

(* Rates granted as anything but 1/den are misunderstood: 30 frames per
   second as 1001/30000 of a second is shown as 30303. A rate above a million
   makes the state crash; a negative one is such a rate. *)
Definition ntsc : env :=
  mkEnv true true (Some 7) true true true (fun w h f => Some (mkF w h f (2 * w))) None
        (fun d => Some (1001, 30000)) (Some 4%nat) true (fun _ => Some 614400) (fun _ => true) (fun _ => true) true true (fun _ => true).
Theorem C64_rate_refuted :
  (exists c, configure cam0 ntsc "/dev/video0" 640 480 30 "YUYV" true = Ret c true
     /\ getState c = Some (mkR "capture" (Some (EmptyString, 640, 480, 30303, "YUYV422"%string))))
  /\ (exists c, configureEvent cam0 good [(lit "device", Val VT_STRING (lit "/dev/video0")); (lit "width", Val VT_NUMBER (lit "640"));
                                    (lit "height", Val VT_NUMBER (lit "480")); (lit "fps", Val VT_NUMBER (lit "-1"))] = Configures (Ret c true)
        /\ getState c = None).
Proof.
  split.
  - exists (left (configure cam0 ntsc "/dev/video0" 640 480 30 "YUYV" true)). split; vm_compute; reflexivity.
  - exists (left (configure cam0 good "/dev/video0" 640 480 4294967295 "YUYV" true)). split; vm_compute; reflexivity.
Qed.
Print Assumptions C64_rate_refuted.

(* A camera once configured for a coded format and later for raw frames is
   taken to give coded ones: the frames made for a connection do not depend
   on the size. *)
Theorem C64_codec_refuted : forall l c e name w h fps format forced c' d f num den n,
  past c l -> st c = SClose -> tidy e -> configure c e name w h fps format forced = Ret c' true ->
  grants e w h fps format forced d f num den n -> pixelType (ff f) <> P_NONE -> ocodec c = H264 ->
  writer c' = Some (10, 2097152).
Proof.
  intros l c e name w h fps format forced c' d f num den n P H T E G Px K. destruct (past_inv _ _ P) as (_ & L & I0 & _).
  pose proof (configure_closed c L e name w h fps format forced I0 H T) as X. rewrite E in X.
  destruct X as (d' & f' & num' & den' & n' & G' & _ & _ & S1 & _ & _ & Fm & _ & Kd & _).
  destruct (grants_det _ _ _ _ _ _ _ _ _ _ _ _ _ _ _ _ G G') as (_ & -> & _). unfold writer. rewrite S1, Fm, Kd, K.
  destruct (pixelType (ff f)); try reflexivity. congruence.
Qed.
Print Assumptions C64_codec_refuted.
Example C64_codec_case : exists c,
  past c [Configure good "/dev/video0" 640 480 25 "H264" true; Release good] /\ st c = SClose /\ ocodec c = H264
  /\ grants good 640 480 25 "YUYV" true 7 (mkF 640 480 FYuyv 1280) 1 25 4.
Proof.
  exists (fst (releaseDevice (left (configure cam0 good "/dev/video0" 640 480 25 "H264" true)) good)).
  split; [split; [intros k [<- | [<- | []]] m; reflexivity|vm_compute; reflexivity]|].
  split; [vm_compute; reflexivity|]. split; [vm_compute; reflexivity|].
  split; try reflexivity; try (repeat split; reflexivity || lia); intros; split; cbn; congruence.
Qed.

(* MJPEG can be captured but not connected to anything. *)
Theorem C64_mjpeg_refuted : forall c, ocodec c = MJPEG -> writer c = None.
Proof. intros c H. unfold writer. rewrite H. destruct (st c); reflexivity. Qed.
Print Assumptions C64_mjpeg_refuted.

(* Cases: granted and captured; refused and closed; released. *)
Example C64_case : exists c,
  configure cam0 good "/dev/video0" 640 480 25 "RGB24" true = Ret c true /\ holdsCapture c
  /\ getState c = Some (mkR "capture" (Some (EmptyString, 640, 480, 25, "RGB24"%string)))
  /\ writer c = Some (10, 6220800)
  /\ exists c', releaseDevice c good = (c', true) /\ holdsNothing c' /\ getState c' = Some (mkR "close" None).
Proof.
  set (c := left (configure cam0 good "/dev/video0" 640 480 25 "RGB24" true)).
  exists c. split; [vm_compute; reflexivity|]. split; [repeat split; vm_compute; (reflexivity || lia)|]. split; [vm_compute; reflexivity|].
  split; [vm_compute; reflexivity|]. exists (fst (releaseDevice c good)).
  split; [vm_compute; reflexivity|]. split; [repeat split; vm_compute; reflexivity|vm_compute; reflexivity].
Qed.
