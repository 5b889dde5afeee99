(** C89: the report of a filter's state tells what the filter is doing and what was set. *)
From Coq Require Import Ascii String Sorting.Sorted.
From Verif Require Import Base ZMap F32 JsonModel JsonSpec JsonProofs NamesModel CtlModel CtlSpec FtxModel FtxSpec EvtModel EvtSpec EvtProofs RepModel RepSpec RepProofs RepProofs2 RepProofs3 RepProofs4 RepProofs5 EvtProps.
From Verif Require PipeModel MixModel VidModel AdcModel AenModel EncModel MpdModel.
Local Open Scope string_scope.
Local Open Scope list_scope.
Local Open Scope Z_scope.

(** The object getState answers about a filter has its number, its type, its role and its state, each under one name
    (of a transmitter only if no connection has two streams). *)
Theorem C89_report_tells_partial id r st : int32 id -> plainState st -> oneStream st ->
  number (filterNode id r st) "id" id /\ text (filterNode id r st) "type" (lit (getFilterTypeAsString (typeOf st))) /\
  text (filterNode id r st) "role" (lit (getRoleAsString r)) /\ tells st (filterNode id r st).
Proof.
  intros I0 P O1. destruct (head_tells st (report st) id r I0 (report_free st)) as (A & B & C). split; [exact A|]. split; [exact B|]. split; [exact C|]. apply pre_tells, report_tells; assumption.
Qed.
Print Assumptions C89_report_tells_partial.

(** With a second stream it does not: the second object of "subsessionsStats" has every member twice, *)
Theorem C89_second_stream_told_refuted id c s t l : streams c = s :: t :: l -> ~ tells (Tx [(id, c)]) (report (Tx [(id, c)])).
Proof.
  intros E T. cbn [tells report] in T. destruct T as (ns & M & F). cbn [map] in M. match type of M with member ?r _ _ => assert (HM : member r "sessions" (Arr [connNode c])) by mem end.
  pose proof (member_fun _ _ _ _ HM M) as Q. injection Q as <-. inversion F as [|? ? ? ? (o & EO & (_ & _ & (ms & MS & FS))) _]; subst. clear F. cbn [snd] in *. unfold connNode in EO. apply obj_inj in EO. subst o.
  assert (HS : member (object (match who c with Rtsp n u => [("name", ofText n); ("uri", ofText u)] | Rtp ip port => [("ip", ofText ip); ("port", ofText (decimal 20 port))] end ++
      [("subsessionsStats", Arr (statList [] (streams c))); ("readers", Arr (map ofInt (readers c)))])) "subsessionsStats" (Arr (statList [] (streams c)))) by (destruct (who c); cbn [app]; mem).
  pose proof (member_fun _ _ _ _ HS MS) as Q. injection Q as <-. rewrite E in FS. exact (twice_told s t l _ FS).
Qed.
Print Assumptions C89_second_stream_told_refuted.
(** and who looks a member up finds, for every stream, that of the first. *)
Theorem C89_streams_told_apart_refuted s l i n : nth_error (statList [] (s :: l)) i = Some n -> exists o, n = Obj o /\ forall k, get k o = get k (statNodes s).
Proof. apply stat_all. Qed.
Print Assumptions C89_streams_told_apart_refuted.

(** After an event, the report tells what the event set: every parameter that was given, under its name or the one the report
    has for it, with the value that was given. *)
Theorem C89_setting_is_told_partial v st f a c o l : lives st -> plainState st -> view st = Some f -> asks f a c o -> within v st c o -> In (a, l) (table f) ->
  exists st', send v st a (Obj c) = Some st' /\ (exists ob, about st' a c ob) /\ forall ob, about st' a c ob -> agree st a c ob l /\ muted a ob.
Proof.
  intros L P V A W T. exists (obey v o st). split; [unfold send; rewrite V, (carried_out _ _ _ _ A); reflexivity|]. exact (all_told v st f V a c o l (lives_settled st L) P A W T).
Qed.
Print Assumptions C89_setting_is_told_partial.

(** An event about one entry of a list leaves the others as they were told, whether or not the filter takes its values. *)
Theorem C89_other_entries_kept v st f a k c o id st' l l' : lives st -> plainState st -> view st = Some f -> asks f a c o ->
  In (a, k) [("changeChannelGain", "gains"); ("muteChannel", "gains"); ("configChannel", "channels"); ("configCrop", "crops")] -> number c "id" id ->
  send v st a (Obj c) = Some st' -> member (report st) k (Arr l) -> member (report st') k (Arr l') -> forall e j, number e "id" j -> j <> id -> (In (Obj e) l <-> In (Obj e) l').
Proof.
  intros L P V A K N S0 M M' e j NE D. unfold send in S0. rewrite V, (carried_out _ _ _ _ A) in S0. injection S0 as <-. exact (others_kept v st f a k c o id l l' e j (lives_settled st L) P V A K N M M' NE D).
Qed.
Print Assumptions C89_other_entries_kept.

(** An event of the right kinds that asks for nothing, or has an action the filter does not know, changes nothing. *)
Theorem C89_nothing_asked_nothing_changes v st f a c : view st = Some f -> (fits f a c /\ forall o, ~ asks f a c o) \/ ~ known f (lit a) -> send v st a (Obj c) = Some st.
Proof.
  intros V H. unfold send. rewrite V. destruct H as [[F N]|U]; [|rewrite (unknown_action f (lit a) _ U); reflexivity]. destruct (C87_nothing_else_partial f a c F) as [G1 G2]. destruct (event f (lit a) (Some (Obj c))) as [| |o] eqn:E; [contradiction|reflexivity|].
  exfalso. apply (N o), G2, eq_refl.
Qed.
Print Assumptions C89_nothing_asked_nothing_changes.

(** Some of what can be set is not told at all: the frame rate of the mixer, the bit rate of the audio encoder, anything of
    the resampler. An event that sets them leaves the report as it was. *)
Theorem C89_everything_is_told_refuted v :
  (forall m c f, lives (VMix m) -> number c "fps" f -> 0 < f -> absent c "width" ->
     exists m', send v (VMix m) "configure" (Obj c) = Some (VMix m') /\ VidModel.frameTime m' = 1000000 / f /\ report (VMix m') = report (VMix m)) /\
  (forall s c b, AenModel.ecodec s = AC_NONE -> number c "bitrate" b -> (forall k, In k ["codec"; "channels"; "sampleRate"] -> absent c k) ->
     exists s', send v (AEnc s) "configure" (Obj c) = Some (AEnc s') /\ AenModel.ebit s' = b /\ report (AEnc s') = report (AEnc s)) /\
  report Rsm = [].
Proof. split; [intros m c f L; apply rate_untold, lives_settled, L|]. split; [intros s c b; apply bits_untold|reflexivity]. Qed.
Print Assumptions C89_everything_is_told_refuted.

(** What was told can be sent back: an entry of a list with the action that sets it, the whole object with "configure". The
    filter then tells what it told before, *)
Theorem C89_sent_back_changes_nothing v st a o : lives st -> plainState st -> short st -> back st a o -> exists st', send v st a (Obj o) = Some st' /\ report st' = report st.
Proof. intros L. apply back_same, lives_settled, L. Qed.
Print Assumptions C89_sent_back_changes_nothing.
(** and the mixers and the dasher are what they were. *)
Theorem C89_sent_back_same_state v st a o : match st with AMix _ _ | VMix _ | Dash _ => True | _ => False end -> lives st -> plainState st -> short st -> back st a o -> send v st a (Obj o) = Some st.
Proof.
  intros K L P SH B. apply lives_settled in L. destruct B as [n m o l M I0|m o l M I0|s o l M I0|st id r Q]; [eapply back_gain; eassumption|eapply back_channel; eassumption|destruct K|].
  destruct st; try (destruct Q; fail); try (destruct K; fail); [apply back_size; assumption|apply back_dash; assumption].
Qed.
Print Assumptions C89_sent_back_same_state.
(** It is not so of the splitter, which tells "frameTime" and reads "fTime": its own report sets the time to 0. *)
Theorem C89_splitter_sent_back_refuted v id r s : send v (Split s) "configure" (Obj (filterNode id r (Split s))) = Some (Split (mkSpl 0 (base s) (deg s))).
Proof.
  unfold send. cbn [view]. assert (N : absent (filterNode id r (Split s)) "fTime") by (apply (absent_node id r (Split s)); [reflexivity|apply absent_obj; reflexivity]).
  rewrite (carried_out Splitter "configure" _ _ (as_ftime _ None N)). reflexivity.
Qed.
Print Assumptions C89_splitter_sent_back_refuted.
(** Nor does a changed report change what it says: the dasher tells "maxSegments" and "minBufferTime", and reads others. *)
Theorem C89_changed_report_obeyed_refuted v d id r k n : In k ["maxSegments"; "minBufferTime"] -> lives (Dash d) -> plainState (Dash d) -> short (Dash d) ->
  send v (Dash d) "configure" (Obj (change k n (filterNode id r (Dash d)))) = Some (Dash d).
Proof. intros K L. apply dash_ignores; [exact K|apply lives_settled, L]. Qed.
Print Assumptions C89_changed_report_obeyed_refuted.
(** And the video encoder's time between frames, which is not told, becomes that of the rate that is. *)
Theorem C89_encoder_sent_back_state v id r e : lives (VEnc e) -> plainState (VEnc e) ->
  exists e', send v (VEnc e) "configure" (Obj (filterNode id r (VEnc e))) = Some (VEnc e') /\ EncModel.ftime (EncModel.set e') = 1000000 / EncModel.fps (EncModel.set e).
Proof. intros L P. destruct (back_venc v id r e (lives_settled _ L) P) as (e' & A & _ & B). exists e'. split; [exact A|]. cbv zeta in B. rewrite B. reflexivity. Qed.
Print Assumptions C89_encoder_sent_back_state.

(** The text of the answer is read as the answer, *)
Theorem C89_report_is_read_back_partial fm l : Forall (fun x => int32 (fst x) /\ plainState (snd (snd x)) /\ sizedState (snd (snd x))) l ->
  parse newParser (blank (filtersNode l)) (write fm (filtersNode l)) = Parsed newParser (filtersNode l).
Proof. intros F. apply roundtrip, nodes_good, F. Qed.
Print Assumptions C89_report_is_read_back_partial.
(** which does not hold of smaller or greater floats: a mixer whose master gain is a hundred-thousandth tells "1e-05". *)
Definition quiet : state := AMix 8 (snd (MixModel.step (MixModel.EMaster (fl one 100000)) (MixModel.newMixer 48000 2))).
Lemma plain_by v m k : Z.abs m <? 1000000 = true -> ofDec m k =? v = true -> (2 ^ 24 <=? Z.abs v) && (Z.abs v <=? (2 ^ 24 - 1) * 2 ^ 253) = true -> plain v.
Proof. intros A B C. apply Z.ltb_lt in A. apply Z.eqb_eq in B. apply andb_true_iff in C. rewrite !Z.leb_le in C. right. split; [exists m, k; auto|exact C]. Qed.
Ltac range := unfold int32; split; vm_compute; intros X; discriminate X.
Theorem C89_any_report_read_back_refuted : lives quiet /\ plainState quiet /\
  exists p n, parse newParser (blank (filtersNode [(3, (REGULAR, quiet))])) (write StandardFormat (filtersNode [(3, (REGULAR, quiet))])) = Failed p n.
Proof.
  split; [apply lv_amix_step, lv_amix|]. split; [|eexists; eexists; vm_compute; reflexivity].
  split; [repeat (constructor; [range|]); constructor|]. split; [|constructor]. apply (plain_by _ 1 (-5)); vm_compute; reflexivity.
Qed.
Print Assumptions C89_any_report_read_back_refuted.

(** *** Cases that meet the hypotheses. *)
Definition noLibs : env := mkEnv (fun _ _ => 0) (fun _ _ => true) (fun _ _ => true) (AenModel.mkAns None false None) true.
(** A mixer of two inputs, one at half gain: its report tells so, and is read as it was written. *)
Definition someMix : MixModel.mixer := snd (MixModel.step (MixModel.EGain 5 (one / 2)) (snd (MixModel.step (MixModel.EAdd 3) (snd (MixModel.step (MixModel.EAdd 5) (MixModel.newMixer 48000 2)))))).
Definition mixed : state := AMix 8 someMix.
Lemma mixed_lives : lives mixed. Proof. repeat apply lv_amix_step. apply lv_amix. Qed.
Lemma mixed_plain : plainState mixed.
Proof.
  split; [repeat (constructor; [range|]); constructor|]. split; [apply (plain_by _ 6 (-1)); vm_compute; reflexivity|].
  change (MixModel.gains someMix) with [(3, one); (5, one / 2)]. constructor; [|constructor; [|constructor]]; (split; [range|]); [apply (plain_by _ 1 0)|apply (plain_by _ 5 (-1))]; vm_compute; reflexivity.
Qed.
Lemma mixed_sized : sizedState mixed.
Proof. split; [right; split; vm_compute; discriminate|]. change (MixModel.gains someMix) with [(3, one); (5, one / 2)]. repeat (constructor; [right; split; vm_compute; discriminate|]). constructor. Qed.
Example C89_report_tells_ex : int32 3 /\ plainState mixed /\ oneStream mixed /\ sizedState mixed /\ get "masterGain" (filterNode 3 REGULAR mixed) = Some (Val VT_NUMBER (lit "0.6")).
Proof. split; [range|]. split; [exact mixed_plain|]. split; [exact Logic.I|]. split; [exact mixed_sized|]. vm_compute. reflexivity. Qed.
(** A quarter for the other input: the report says a quarter. *)
Example C89_setting_is_told_ex : asks AudioMixer "changeChannelGain" gainEvent (ToMixer (MixModel.EGain 3 (one / 4))) /\ within noLibs mixed gainEvent (ToMixer (MixModel.EGain 3 (one / 4))) /\
  In ("changeChannelGain", [("id", KInt); ("gain", KReal)]) (table AudioMixer) /\
  option_map (fun st => get "gains" (report st)) (send noLibs mixed "changeChannelGain" (Obj gainEvent)) =
    Some (Some (Arr [Obj [(lit "id", Val VT_NUMBER (lit "3")); (lit "gain", Val VT_NUMBER (lit "0.25"))]; Obj [(lit "id", Val VT_NUMBER (lit "5")); (lit "gain", Val VT_NUMBER (lit "0.5"))]])).
Proof.
  split; [apply C87_event_is_carried_out_ex|]. split; [|split; [left; reflexivity|vm_compute; reflexivity]]. split; [reflexivity|]. split; [split; vm_compute; discriminate|]. apply (plain_by _ 25 (-2)); vm_compute; reflexivity.
Qed.
(** A dasher that was configured: sent back with a hundred segments instead of five, nothing changes. *)
Definition dashed : MpdModel.dasher := MpdModel.step (MpdModel.OConfigure (lit "/tmp/") (lit "live") 2 5 6 true) (MpdModel.newDasher 7).
Lemma dashed_lives : lives (Dash dashed). Proof. apply lv_dash_step, lv_dash. Qed.
Lemma dashed_plain : plainState (Dash dashed) /\ short (Dash dashed).
Proof.
  split.
  - split; [vm_compute; intuition discriminate|]. split; [vm_compute; intuition discriminate|]. split; [range|]. split; [|constructor].
    intros m E. assert (Q : m = MpdModel.mkMgr 5 6 None None) by (vm_compute in E; congruence). subst m. repeat (constructor; [range|]). constructor.
  - intros m E. assert (Q : m = MpdModel.mkMgr 5 6 None None) by (vm_compute in E; congruence). subst m. split; vm_compute; congruence.
Qed.
Example C89_changed_report_ex : get "maxSegments" (report (Dash dashed)) = Some (Val VT_NUMBER (lit "5")) /\
  get "maxSegments" (change "maxSegments" (ofInt 100) (filterNode 1 SERVER (Dash dashed))) = Some (Val VT_NUMBER (lit "100")) /\
  send noLibs (Dash dashed) "configure" (Obj (change "maxSegments" (ofInt 100) (filterNode 1 SERVER (Dash dashed)))) = Some (Dash dashed).
Proof. split; [reflexivity|]. split; [reflexivity|]. apply C89_changed_report_obeyed_refuted; [left; reflexivity|exact dashed_lives|apply dashed_plain|apply dashed_plain]. Qed.
Example C89_sent_back_ex : back mixed "changeChannelGain" [(lit "id", ofInt 5); (lit "gain", floatNode (one / 2))] /\ back (Dash dashed) "configure" (filterNode 1 SERVER (Dash dashed)) /\
  send noLibs mixed "changeChannelGain" (Obj [(lit "id", ofInt 5); (lit "gain", floatNode (one / 2))]) = Some mixed.
Proof.
  assert (B : back mixed "changeChannelGain" [(lit "id", ofInt 5); (lit "gain", floatNode (one / 2))]).
  { apply (bk_gain 8 someMix _ (map gainNode (MixModel.gains someMix))); [unfold mixed; cbn [report]; RepProofs.mem|right; left; reflexivity]. }
  split; [exact B|]. split; [apply bk_whole; exact Logic.I|]. apply C89_sent_back_same_state; [exact Logic.I|exact mixed_lives|exact mixed_plain|exact Logic.I|exact B].
Qed.
(** Two streams of a connection: the second one's rate, looked up, is the first one's. *)
Definition stream1 : cstat := mkCs 7 (100, 50, 200) (0, 0, 0) (0, 0, 0) (0, 0, 0).
Definition stream2 : cstat := mkCs 8 (900, 800, 999) (0, 0, 0) (0, 0, 0) (0, 0, 0).
Example C89_streams_ex : plainState (Tx [(1, mkConn (Rtp (lit "10.0.0.1") 5004) [stream1; stream2] [4; 5])]) /\
  match nth_error (statList [] [stream1; stream2]) 1 with Some (Obj o) => get "SSRC" o = Some (Val VT_STRING (lit "7")) /\ get "avgBitrateInKbps" o = Some (Val VT_NUMBER (lit "100")) | _ => False end.
Proof.
  split; [|vm_compute; split; reflexivity]. constructor; [|constructor]. split; [split; [vm_compute; intuition discriminate|split; [discriminate|reflexivity]]|]. split; [|repeat (constructor; [range|]); constructor].
  repeat (constructor; [repeat split; vm_compute; try discriminate; reflexivity|]). constructor.
Qed.
