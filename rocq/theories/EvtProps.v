(** C87: an event sent to a filter makes it do what the event says, and nothing else. *)
From Coq Require Import Ascii String.
From Verif Require Import Base ZMap F32 JsonModel NamesModel CtlModel CtlSpec FtxModel FtxSpec EvtModel EvtSpec EvtProofs.
From Verif Require MixModel VidModel RsmModel AdcModel AenModel EncModel MpdModel SdpModel SdpSpec.
Local Open Scope string_scope.
Local Open Scope list_scope.
Local Open Scope Z_scope.

(** What an event asks for is what the filter is ordered to do. *)
Theorem C87_event_is_carried_out f a c o : asks f a c o -> event f (lit a) (Some (Obj c)) = Orders o.
Proof. apply carried_out. Qed.
Print Assumptions C87_event_is_carried_out.
(** A reference time that does not begin with a blank, a sign or a digit changes nothing; it ends the program. *)
Theorem C87_time_is_a_number_refuted c ch s : text c "referenceTime" (ch :: s) -> ~ blankChar ch -> digit ch = None -> ch <> "+"%char -> ch <> "-"%char ->
  encoderEvent (lit "gopReferenceTime") (Some (Obj c)) = Ends.
Proof.
  intros T B D P M. change (encoderEvent (lit "gopReferenceTime") (Some (Obj c))) with (setGopReferenceTime (Some (Obj c))).
  unfold setGopReferenceTime. rewrite (rd_guarded _ _ _ _ _ (reads_text c _ _ T)), (stoull_other ch s B D P M). reflexivity.
Qed.
Print Assumptions C87_time_is_a_number_refuted.
(** A sign may come before the digits: "-" gives a time before the origin. *)
Theorem C87_signed_time c w (neg : bool) s t : text c "referenceTime" (w ++ (if neg then "-"%char else "+"%char) :: s) -> Forall blankChar w ->
  s <> [] -> digits s t -> t < 2 ^ 63 ->
  encoderEvent (lit "gopReferenceTime") (Some (Obj c)) = Orders (EncModel.SetRef (if neg then - t else t)).
Proof.
  intros T W N D B. change (encoderEvent (lit "gopReferenceTime") (Some (Obj c))) with (setGopReferenceTime (Some (Obj c))).
  unfold setGopReferenceTime. rewrite (rd_guarded _ _ _ _ _ (reads_text c _ _ T)), (stoull_blanks w _ W), (stoull_sign neg s t D N B). cbn [need].
  destruct neg; unfold signed64.
  - pose proof (digits_nonneg _ _ D). destruct (Z.eq_dec t 0) as [->|Z0]; [reflexivity|].
    rewrite <- (Z.mod_unique (- t) (2 ^ 64) (-1) (2 ^ 64 - t)) by lia. replace (2 ^ 64 - t <? 2 ^ 63) with false by (symmetry; apply Z.ltb_ge; lia). do 2 f_equal. lia.
  - replace (t <? 2 ^ 63) with true by (symmetry; apply Z.ltb_lt; lia). reflexivity.
Qed.
Print Assumptions C87_signed_time.
Example C87_signed_case : text [(lit "referenceTime", Val VT_STRING (lit " -250"))] "referenceTime" (lit " -250") /\
  encoderEvent (lit "gopReferenceTime") (Some (Obj [(lit "referenceTime", Val VT_STRING (lit " -250"))])) = Orders (EncModel.SetRef (-250)).
Proof. split; [exists [], []; repeat split; cbn; tauto|vm_compute; reflexivity]. Qed.

(** Of an event whose parameters are of the right kinds, nothing else comes: the filter is ordered to do exactly what
    is asked for, nothing if nothing is, and the program goes on. *)
Theorem C87_nothing_else_partial f a c : fits f a c ->
  event f (lit a) (Some (Obj c)) <> Ends /\ forall o, event f (lit a) (Some (Obj c)) = Orders o <-> asks f a c o.
Proof. intros F. destruct (never_wrong f a c F) as [G1 G2]. split; [exact G1|]. intros o. split; [apply G2|apply carried_out]. Qed.
Print Assumptions C87_nothing_else_partial.

(** An action the filter does not have is ignored, whatever its parameters. *)
Theorem C87_unknown_action_ignored f a p : ~ known f a -> event f a p = Refused.
Proof. apply unknown_action. Qed.
Print Assumptions C87_unknown_action_ignored.

(** So is an event that lacks a parameter it needs, whatever the others are. *)
Theorem C87_incomplete_event_ignored f a k c : needed f a k -> absent c k -> event f (lit a) (Some (Obj c)) = Refused.
Proof. apply incomplete. Qed.
Print Assumptions C87_incomplete_event_ignored.
Theorem C87_incomplete_session_ignored kn fresh c : absent c "uri" \/ absent c "progName" -> absent c "subsessions" ->
  event (Receiver kn fresh) (lit "addSession") (Some (Obj c)) = Refused.
Proof. apply session_incomplete. Qed.
Print Assumptions C87_incomplete_session_ignored.

(** Without the condition on kinds the program may end: it does for any known action (but the two that have no
    parameters) when "params" is not an object, *)
Theorem C87_program_goes_on_refuted f a p : known f a -> a <> lit "muteMaster" -> a <> lit "forceIntra" -> (forall c, p <> Obj c) ->
  event f a (Some p) = Ends.
Proof. apply no_object. Qed.
Print Assumptions C87_program_goes_on_refuted.
(** and for single parameters of the wrong kind. *)
Theorem C87_wrong_kind_ends_refuted : exists c1 c2 c3,
  event AudioMixer (lit "muteChannel") (Some (Obj c1)) = Ends /\ member c1 "id" (Val VT_STRING (lit "7")) /\
  event Resampler (lit "configure") (Some (Obj c2)) = Ends /\ member c2 "fps" (Val VT_BOOL (lit "true")) /\
  event VideoEncoder (lit "gopReferenceTime") (Some (Obj c3)) = Ends /\ text c3 "referenceTime" (lit "now").
Proof.
  exists [(lit "id", Val VT_STRING (lit "7"))], [(lit "fps", Val VT_BOOL (lit "true"))], [(lit "referenceTime", Val VT_STRING (lit "now"))].
  repeat split; try (vm_compute; reflexivity); exists [], []; repeat split; cbn; tauto.
Qed.
Print Assumptions C87_wrong_kind_ends_refuted.

(** A call of the programming interface orders what its arguments say. *)
Theorem C87_call_arrives f cl o : meant f cl o -> event f (fst cl) (snd cl) = Orders o.
Proof. apply call_arrives. Qed.
Print Assumptions C87_call_arrives.
(** A text with a backslash does not arrive: the preset "a\n" becomes another. *)
Theorem C87_text_arrives_refuted : exists pr, forall br fps gop la bf th an gt,
  event VideoEncoder (fst (apiConfigureEncoder br fps gop la bf th an pr gt)) (snd (apiConfigureEncoder br fps gop la bf th an pr gt)) <>
    Orders (ToEncoder (EncModel.Configure (EncModel.mkRq (Some br) (Some fps) (Some gop) (Some la) (Some bf) (Some th) (Some an) (Some (string_of_list_ascii pr)) (Some gt)))).
Proof.
  exists (lit "a\n"). intros br fps gop la bf th an gt E.
  assert (X : exists q, event VideoEncoder (fst (apiConfigureEncoder br fps gop la bf th an (lit "a\n") gt)) (snd (apiConfigureEncoder br fps gop la bf th an (lit "a\n") gt)) =
    Orders (ToEncoder (EncModel.Configure q)) /\ EncModel.rPreset q = Some (string_of_list_ascii (unescape (lit "a\n")))) by (eexists; split; reflexivity).
  destruct X as (q & X & Y). rewrite X in E. injection E as ->. cbn [EncModel.rPreset] in Y. vm_compute in Y. discriminate Y.
Qed.
Print Assumptions C87_text_arrives_refuted.

(** *** What an event does not name stays as it is: of the video mixer, its size and the time between its frames. *)
Theorem C87_video_mixer_keeps_rest m c : 0 < VidModel.ow m <= 1920 -> 0 < VidModel.oh m <= 1080 -> fits (VideoMixer m) "configure" c -> absent c "fps" ->
  exists w h, event (VideoMixer m) (lit "configure") (Some (Obj c)) = Orders (ToVideoMixer (VidModel.VSize w h 0)) /\
    (let m' := VidModel.vmStep (VidModel.VSize w h 0) m in VidModel.frameTime m' = VidModel.frameTime m /\ VidModel.cfg m' = VidModel.cfg m /\
       (absent c "width" -> m' = m)).
Proof.
  intros W H (ND & F) N.
  assert (FI : forall k, k = "width" \/ k = "height" -> exists o, maybe number c k o /\ reads toInt isNum c k o).
  { intros k K. apply fit_int; [exact ND|]. intros n I0. apply (F _ (or_intror (or_introl eq_refl)) k KInt n); [|exact I0]. destruct K as [->| ->]; [left|right; left]; reflexivity. }
  destruct (FI "width" (or_introl eq_refl)) as (ow' & MW & _). destruct (FI "height" (or_intror eq_refl)) as (oh' & MH & _).
  assert (ID : VidModel.configure (VidModel.ow m) (VidModel.oh m) 0 m = (true, m)).
  { unfold VidModel.configure. replace ((VidModel.ow m <=? 0) || (1920 <? VidModel.ow m) || (VidModel.oh m <=? 0) || (1080 <? VidModel.oh m)) with false by (symmetry; rewrite !orb_false_iff; repeat split; first [apply Z.leb_gt|apply Z.ltb_ge]; lia).
    destruct m; reflexivity. }
  assert (KEEP : absent c "width" \/ absent c "height" -> exists w h, event (VideoMixer m) (lit "configure") (Some (Obj c)) = Orders (ToVideoMixer (VidModel.VSize w h 0)) /\
    (let m' := VidModel.vmStep (VidModel.VSize w h 0) m in VidModel.frameTime m' = VidModel.frameTime m /\ VidModel.cfg m' = VidModel.cfg m /\ (absent c "width" -> m' = m))).
  { intros A. exists (VidModel.ow m), (VidModel.oh m). split; [exact (carried_out (VideoMixer m) "configure" c _ (as_rate m c None A N))|].
    cbn zeta. cbn [VidModel.vmStep]. rewrite ID. repeat split. }
  destruct ow' as [w|]; [|apply KEEP; left; exact MW]. destruct oh' as [h|]; [|apply KEEP; right; exact MH].
  exists w, h. split; [exact (carried_out (VideoMixer m) "configure" c _ (as_size m c w h None MW MH N))|].
  cbn zeta. cbn [VidModel.vmStep]. unfold VidModel.configure. cbn [Z.ltb Z.compare].
  destruct ((w <=? 0) || (1920 <? w) || (h <=? 0) || (1080 <? h)); cbn [snd VidModel.frameTime VidModel.cfg]; (split; [reflexivity|split; [reflexivity|]]); intros A;
    exfalso; destruct MW as (s & M & _); apply A; apply member_in in M; apply (in_map fst) in M; exact M.
Qed.
Print Assumptions C87_video_mixer_keeps_rest.

(** Of the resampler: whatever frames and events came before, each of its settings that an event does not name is what
    it was; the time between frames too, although it is computed anew from a rounded rate. *)
Theorem C87_resampler_keeps_rest valid o i ops c q : let s := RsmModel.run valid (RsmModel.rsm0 o i) ops in
  event Resampler (lit "configure") (Some (Obj c)) = Orders (ToResampler q) ->
  let s' := fst (RsmModel.configEvent s q) in
  (absent c "width" -> RsmModel.outW s' = RsmModel.outW s) /\ (absent c "height" -> RsmModel.outH s' = RsmModel.outH s) /\
  (absent c "pixelFormat" -> RsmModel.outFmt s' = RsmModel.outFmt s) /\ (absent c "fps" -> RsmModel.ftime s' = RsmModel.ftime s).
Proof.
  intros s E. assert (Q : (absent c "width" -> RsmModel.qW q = None) /\ (absent c "height" -> RsmModel.qH q = None) /\ (absent c "fps" -> RsmModel.qFps q = None) /\ (absent c "pixelFormat" -> RsmModel.qFmt q = None)).
  { revert E. cbn [event]. unfold resamplerEvent. rewrite CtlProofs.streq_refl. cbn [onObject].
    destruct (opt toInt "width" c) as [w|] eqn:EW; [|discriminate]. destruct (opt toInt "height" c) as [h|] eqn:EH; [|discriminate].
    destruct (opt toInt "fps" c) as [f|] eqn:EF; [|discriminate]. destruct (opt toInt "pixelFormat" c) as [x|] eqn:EX; [|discriminate].
    cbn [need gmap]. intros E. injection E as <-. cbn [RsmModel.qW RsmModel.qH RsmModel.qFps RsmModel.qFmt].
    repeat split; intros A; pose proof (rd_opt _ _ _ _ _ (reads_absent toInt isNum c _ A)); congruence. }
  destruct Q as (Q1 & Q2 & Q3 & Q4). assert (FT : RsmModel.ftime s = 0 \/ exists n, 0 < n <= 1000000 /\ RsmModel.ftime s = 1000000 / n).
  { unfold s. assert (G : forall ops s0, (RsmModel.ftime s0 = 0 \/ exists n, 0 < n <= 1000000 /\ RsmModel.ftime s0 = 1000000 / n) ->
      RsmModel.ftime (RsmModel.run valid s0 ops) = 0 \/ exists n, 0 < n <= 1000000 /\ RsmModel.ftime (RsmModel.run valid s0 ops) = 1000000 / n).
    { clear. intros ops. induction ops as [|op ops IH]; intros s0 H; [exact H|]. cbn [RsmModel.run fold_left]. apply IH. destruct op as [f|q]; cbn [RsmModel.step].
      - replace (RsmModel.ftime (fst (RsmModel.process valid s0 f))) with (RsmModel.ftime s0); [exact H|].
        assert (RC : RsmModel.ftime (fst (RsmModel.reconfigure valid s0 f)) = RsmModel.ftime s0).
        { unfold RsmModel.reconfigure. cbv zeta. match goal with |- context [if ?b then (s0, true) else _] => destruct b end; [reflexivity|].
          destruct (RsmModel.known (RsmModel.fmt f)); [|reflexivity]. match goal with |- context [if ?b then _ else _] => destruct b end; reflexivity. }
        unfold RsmModel.process. destruct (RsmModel.reconfigure valid s0 f) as [s1 b]. cbn [fst] in RC. rewrite <- RC. cbv zeta.
        destruct b; [|reflexivity]. destruct (RsmModel.known (RsmModel.fmt f) && valid f); [|reflexivity].
        match goal with |- context [if ?b then _ else (_, RsmModel.Refused)] => destruct b end; [|reflexivity].
        destruct (RsmModel.ctx s1); [|reflexivity]. match goal with |- context [if ?b then _ else _] => destruct b end; reflexivity.
      - assert (C : forall w h f p, RsmModel.ftime (fst (RsmModel.configure0 s0 w h f p)) = 0 \/ exists n, 0 < n <= 1000000 /\ RsmModel.ftime (fst (RsmModel.configure0 s0 w h f p)) = 1000000 / n).
        { intros w h f p. cbn [RsmModel.configure0 fst RsmModel.ftime]. destruct (f <=? 0) eqn:L; [left; reflexivity|]. apply Z.leb_gt in L.
          destruct (Z.lt_ge_cases 1000000 f); [left; apply Z.div_small; lia|right; exists f; split; [lia|reflexivity]]. }
        unfold RsmModel.configEvent. cbv zeta. destruct (RsmModel.qFmt q) as [z|]; [destruct ((z <? -1) || (5 <? z)); [exact H|]|]; apply C. }
    apply G. left. reflexivity. }
  assert (K : RsmModel.qFps q = None -> (if RsmModel.dflt (RsmModel.qFps q) (if 0 <? RsmModel.ftime s then 1000000 / RsmModel.ftime s else 0) <=? 0 then 0
              else 1000000 / RsmModel.dflt (RsmModel.qFps q) (if 0 <? RsmModel.ftime s then 1000000 / RsmModel.ftime s else 0)) = RsmModel.ftime s).
  { intros ->. cbn [RsmModel.dflt]. destruct FT as [->|(n & B & ->)]; [reflexivity|].
    assert (T : 1 <= 1000000 / n) by (apply Z.div_le_lower_bound; lia). replace (0 <? 1000000 / n) with true by (symmetry; apply Z.ltb_lt; lia).
    set (t := 1000000 / n) in *. assert (U : n <= 1000000 / t) by (apply Z.div_le_lower_bound; [lia|]; pose proof (Z.mul_div_le 1000000 n ltac:(lia)); unfold t; lia).
    replace (1000000 / t <=? 0) with false by (symmetry; apply Z.leb_gt; lia). apply Z.le_antisymm.
    - assert (D : 1000000 / (1000000 / t) <= 1000000 / n) by (apply Z.div_le_compat_l; lia). exact D.
    - apply Z.div_le_lower_bound; [lia|]. pose proof (Z.mul_div_le 1000000 t ltac:(lia)). lia. }
  cbn zeta. unfold RsmModel.configEvent. cbv zeta. repeat split; intros A.
  - rewrite (Q1 A). destruct (RsmModel.qFmt q) as [z|]; [destruct ((z <? -1) || (5 <? z))|]; reflexivity.
  - rewrite (Q2 A). destruct (RsmModel.qFmt q) as [z|]; [destruct ((z <? -1) || (5 <? z))|]; reflexivity.
  - rewrite (Q4 A). reflexivity.
  - specialize (K (Q3 A)). destruct (RsmModel.qFmt q) as [z|]; [destruct ((z <? -1) || (5 <? z)); [reflexivity|]|]; exact K.
Qed.
Print Assumptions C87_resampler_keeps_rest.

(** Not so the splitter: any "configure" event that does not name the time between frames sets it to 0. *)
Theorem C87_splitter_keeps_rest_refuted c t : absent c "fTime" ->
  exists t', event Splitter (lit "configure") (Some (Obj c)) = Orders (ToSplitter (FrameTime t')) /\ setFrameTime t' t = 0.
Proof.
  intros N. exists 0. split; [|reflexivity]. exact (carried_out Splitter "configure" c _ (as_ftime c None N)).
Qed.
Print Assumptions C87_splitter_keeps_rest_refuted.
(** And a size is set only if both its sides are named. *)
Theorem C87_width_alone_is_set_refuted m c w : number c "width" w -> absent c "height" -> absent c "fps" ->
  event (VideoMixer m) (lit "configure") (Some (Obj c)) = Orders (ToVideoMixer (VidModel.VSize (VidModel.ow m) (VidModel.oh m) 0)).
Proof. intros _ H F. exact (carried_out (VideoMixer m) "configure" c _ (as_rate m c None (or_intror H) F)). Qed.
Print Assumptions C87_width_alone_is_set_refuted.

(** *** Instances. *)
Ltac mem := match goal with |- member ?c ?k _ => idtac end;
  first [ exists []; eexists; split; [reflexivity|cbn; split; intuition discriminate]
        | eexists [_]; eexists; split; [reflexivity|cbn; split; intuition discriminate]
        | eexists [_; _]; eexists; split; [reflexivity|cbn; split; intuition discriminate] ].
(** "changeChannelGain" with id 3 and gain 0.25, in the other order and with another member. *)
Definition gainEvent : fields := [(lit "gain", Val VT_NUMBER (lit "0.25")); (lit "id", Val VT_NUMBER (lit "3")); (lit "note", Val VT_NULL (lit "null"))].
Lemma three : intIs (lit "3") 3.
Proof. split; [unfold int32; lia|]. left. split; [discriminate|]. exact (dg_snoc [] 0 3 dg_nil ltac:(lia)). Qed.
Lemma quarter : isReal (lit "0.25") (one / 4).
Proof.
  exists 25, 2%nat. split; [|split; [|vm_compute; reflexivity]].
  - left. right. exists (lit "0"), (lit "25"). split; [reflexivity|]. split; [reflexivity|]. split; [discriminate|].
    change (lit "0" ++ lit "25") with ((([] ++ [ascii_of_N (48 + Z.to_N 0)]) ++ [ascii_of_N (48 + Z.to_N 2)]) ++ [ascii_of_N (48 + Z.to_N 5)]).
    change 25 with (10 * (10 * (10 * 0 + 0) + 2) + 5). repeat constructor; lia.
  - vm_compute. discriminate.
Qed.
Example C87_event_is_carried_out_ex : asks AudioMixer "changeChannelGain" gainEvent (ToMixer (MixModel.EGain 3 (one / 4))) /\
  event AudioMixer (lit "changeChannelGain") (Some (Obj gainEvent)) = Orders (ToMixer (MixModel.EGain 3 (one / 4))).
Proof.
  assert (A : asks AudioMixer "changeChannelGain" gainEvent (ToMixer (MixModel.EGain 3 (one / 4)))).
  { constructor; [exists (lit "3"); split; [mem|exact three]|exists (lit "0.25"); split; [mem|exact quarter]]. }
  split; [exact A|apply C87_event_is_carried_out, A].
Qed.
Example C87_nothing_else_ex : fits AudioMixer "changeChannelGain" gainEvent /\ fits Transmitter "removeConnection" [(lit "id", Val VT_NUMBER (lit "3"))].
Proof.
  split; (split; [repeat constructor; cbn; intuition discriminate|]); intros l I0; cbn [table In] in I0.
  - repeat destruct I0 as [E|I0]; try contradiction; try discriminate E. injection E as <-. intros k d n K I0. cbn [In] in K, I0.
    destruct K as [K|[K|[]]]; injection K as <- <-; destruct I0 as [I0|[I0|[I0|[]]]]; try discriminate I0; injection I0 as <-; [exists (lit "3"), 3; split; [reflexivity|exact three]|].
    exists (lit "0.25"), (one / 4). split; [reflexivity|exact quarter].
  - repeat destruct I0 as [E|I0]; try contradiction; try discriminate E. injection E as <-. intros k d n K I0. cbn [In] in K, I0.
    destruct K as [K|[]]; injection K as <- <-; destruct I0 as [I0|[]]; injection I0 as <-. exists (lit "3"), 3. split; [reflexivity|exact three].
Qed.
Example C87_incomplete_ex : needed Splitter "configCrop" "y" /\ absent gainEvent "y" /\ needed Demuxer "configure" "uri".
Proof. split; [|split]; [| |]; [eexists; split; [left; reflexivity|cbn; tauto]|unfold absent; cbn; intuition discriminate|eexists; split; [left; reflexivity|cbn; tauto]]. Qed.
Example C87_unknown_ex : ~ known Resampler (lit "muteMaster") /\ known AudioMixer (lit "muteMaster").
Proof.
  split; [intros (b & l & [E|[]] & D); injection E as <- <-; discriminate D|]. exists "muteMaster", []. split; [cbn; tauto|reflexivity].
Qed.
Example C87_program_goes_on_ex : known Splitter (lit "configure") /\ event Splitter (lit "configure") (Some (Val VT_NUMBER (lit "5"))) = Ends.
Proof. split; [exists "configure"; eexists; split; [right; left; reflexivity|reflexivity]|reflexivity]. Qed.
Example C87_call_arrives_ex : meant VideoEncoder (apiConfigureEncoder 2000 25 25 0 0 4 true (lit "ultrafast") 0)
  (ToEncoder (EncModel.Configure (EncModel.mkRq (Some 2000) (Some 25) (Some 25) (Some 0) (Some 0) (Some 4) (Some true) (Some "ultrafast") (Some 0)))) /\
  meant AudioMixer (apiChangeMasterGain (ofDec 75 (-2))) (ToMixer (MixModel.EMaster (ofDec 75 (-2)))).
Proof.
  split.
  - apply (me_encode 2000 25 25 0 0 4 true (lit "ultrafast") 0); [repeat constructor; unfold int32; lia|cbn; intuition discriminate].
  - constructor. right. split; [exists 75, (-2); split; [lia|reflexivity]|]. vm_compute. split; discriminate.
Qed.
(** A session by streams. *)
Example C87_streams_ex : exists c, asks (Receiver (fun _ => false) (lit "x")) "addSession" c (ToReceiver (ByStreams (lit "cam") [SdpModel.mkSub (lit "audio") (lit "opus") 3 3 3 3] true)).
Proof.
  set (e := [(lit "medium", Val VT_STRING (lit "audio")); (lit "codec", Val VT_STRING (lit "opus")); (lit "bandwidth", Val VT_NUMBER (lit "3"));
             (lit "timeStampFrequency", Val VT_NUMBER (lit "3")); (lit "port", Val VT_NUMBER (lit "3")); (lit "channels", Val VT_NUMBER (lit "3"))]).
  exists [(lit "id", Val VT_STRING (lit "cam")); (lit "subsessions", Arr [Obj e])].
  apply (as_streams (fun _ => false) (lit "x") _ (Some (lit "cam")) [Obj e] _ None).
  - cbn [maybe]. unfold text. mem.
  - reflexivity.
  - left. unfold absent. cbn. intuition discriminate.
  - mem.
  - constructor; [|constructor]. exists e. unfold text, number, e. cbn [SdpModel.sMedium SdpModel.sCodec SdpModel.sBandwidth SdpModel.sFreq SdpModel.sPort SdpModel.sChannels].
    split; [reflexivity|]. split; [mem|]. split; [mem|]. split; [exists (lit "3"); split; [mem|exact three]|].
    split; [exists (lit "3"); split; [eexists [_; _; _]; eexists; split; [reflexivity|cbn; split; intuition discriminate]|exact three]|].
    split; [exists (lit "3"); split; [eexists [_; _; _; _]; eexists; split; [reflexivity|cbn; split; intuition discriminate]|exact three]|].
    exists (lit "3"); split; [eexists [_; _; _; _; _]; eexists; split; [reflexivity|cbn; split; intuition discriminate]|exact three].
  - constructor; [|constructor]. cbn. tauto.
  - cbn [maybe]. unfold absent. cbn. intuition discriminate.
Qed.
