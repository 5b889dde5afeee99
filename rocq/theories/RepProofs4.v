(** Proofs about the reports of state: what is told can be sent back. *)
From Coq Require Import Ascii String Sorting.Sorted.
From Verif Require Import Base ZMap F32 JsonModel NamesModel NamesProps CtlModel CtlSpec CtlProofs FtxModel FtxSpec FtxProofs FtxProps EvtModel EvtSpec EvtProofs RepModel RepSpec RepProofs RepProofs2 RepProofs3.
From Verif Require PipeModel MixModel VidModel AdcModel AenModel EncModel MpdModel VidProofs EncProofs MpdProofs.
Local Open Scope string_scope.
Local Open Scope list_scope.
Local Open Scope Z_scope.

Lemma mset_same {A} (m : zmap A) id v : msorted m -> mfind id m = Some v -> mset id v m = m.
Proof. intros S0 F. apply mext; [apply msorted_mset, S0|exact S0|]. intros k. rewrite mfind_mset. destruct (Z.eqb_spec k id) as [->|]; congruence. Qed.
Lemma absent_app a b k : absent a k -> absent b k -> absent (a ++ b) k.
Proof. unfold absent. intros A B. rewrite map_app, in_app_iff. tauto. Qed.
Lemma absent_node id r st k : free k = true -> absent (report st) k -> absent (filterNode id r st) k.
Proof. intros F A. apply absent_app; [apply (free_head k id r (typeOf st) F)|exact A]. Qed.
Lemma node_tells id r st : plainState st -> oneStream st -> tells st (filterNode id r st).
Proof. intros P O1. apply (pre_tells st (report st) id r (typeOf st)), report_tells; assumption. Qed.
Local Opaque ofInt floatNode ofText ofBool cast toF decimal intText F32.one.

(** The state is the same (but for what is not reported). *)
Lemma back_gain v n m o l : settled (AMix n m) -> plainState (AMix n m) -> member (report (AMix n m)) "gains" (Arr l) -> In (Obj o) l -> send v (AMix n m) "changeChannelGain" (Obj o) = Some (AMix n m).
Proof.
  intros [SM SG] (_ & _ & PG) M I0. cbn [report] in M. match type of M with member ?r _ _ => assert (HM : member r "gains" (Arr (map gainNode (MixModel.gains m)))) by mem end. pose proof (member_fun _ _ _ _ HM M) as E. injection E as <-.
  apply in_map_iff in I0. destruct I0 as ([id g] & E & I0). rewrite Forall_forall in PG. destruct (PG _ I0) as [P1 P2]. cbn [fst snd] in P1, P2. unfold send. cbn [view].
  rewrite <- E. pose proof (call_arrives _ _ _ (me_gain id g P1 P2)) as C. match goal with |- context [event ?a ?b ?c] => change (event a b c) with (event AudioMixer (fst (apiChangeChannelGain id g)) (snd (apiChangeChannelGain id g))) end. rewrite C.
  cbn [obey MixModel.step snd]. f_equal. f_equal. apply (In_mfind _ None _ _ SM) in I0. unfold MixModel.setGain, mmem. rewrite I0. destruct (SG _ _ I0) as [A B].
  destruct (Z.ltb_spec one g); [lia|]. destruct (Z.ltb_spec g 0); [lia|]. rewrite mset_same by assumption. destruct m; reflexivity.
Qed.
Lemma back_channel v m o l : settled (VMix m) -> plainState (VMix m) -> member (report (VMix m)) "channels" (Arr l) -> In (Obj o) l -> send v (VMix m) "configChannel" (Obj o) = Some (VMix m).
Proof.
  intros (_ & _ & SM & SG) (_ & PG) M I0. cbn [report] in M. match type of M with member ?r _ _ => assert (HM : member r "channels" (Arr (map channelNode (VidModel.cfg m)))) by mem end. pose proof (member_fun _ _ _ _ HM M) as E. injection E as <-.
  apply in_map_iff in I0. destruct I0 as ([id k] & E & I0). rewrite Forall_forall in PG. destruct (PG _ I0) as (P1 & P2 & P3). cbn [fst snd] in P1, P2, P3. unfold send. cbn [view].
  rewrite <- E. pose proof (call_arrives _ _ _ (me_channel m id k P1 P2 P3)) as C. match goal with |- context [event ?a ?b ?c] => change (event a b c) with (event (VideoMixer m) (fst (apiConfigChannel id k)) (snd (apiConfigChannel id k))) end. rewrite C.
  cbn [obey VidModel.vmStep]. f_equal. f_equal. apply (In_mfind _ None _ _ SM) in I0. unfold VidModel.configChannel, mmem. rewrite I0. cbn [negb]. destruct (_ || _); [reflexivity|]. destruct (_ || _); [reflexivity|].
  cbn [snd]. unfold VidModel.withCfg. rewrite mset_same by assumption. destruct m; reflexivity.
Qed.
Lemma back_crop v s o l : settled (Split s) -> plainState (Split s) -> member (report (Split s)) "crops" (Arr l) -> In (Obj o) l ->
  exists s', send v (Split s) "configCrop" (Obj o) = Some (Split s') /\ report (Split s') = report (Split s).
Proof.
  intros SM (_ & PG) M I0. cbn [settled] in SM. cbn [report] in M. match type of M with member ?r _ _ => assert (HM : member r "crops" (Arr (map (cropNode s) (VidModel.crops (base s))))) by mem end. pose proof (member_fun _ _ _ _ HM M) as E. injection E as <-.
  apply in_map_iff in I0. destruct I0 as ([id k] & E & I0). rewrite Forall_forall in PG. pose proof (PG _ I0) as P1. cbn [fst snd] in P1.
  assert (P2 : Forall int32 [id; VidModel.kw k; VidModel.kh k; VidModel.kx k; VidModel.ky k; deg s id]) by exact P1. unfold send. cbn [view].
  rewrite <- E. pose proof (call_arrives _ _ _ (me_crop _ _ _ _ _ _ P2)) as C.
  match goal with |- context [event ?a ?b ?c] => change (event a b c) with (event Splitter (fst (apiConfigCrop id (VidModel.kw k) (VidModel.kh k) (VidModel.kx k) (VidModel.ky k) (deg s id))) (snd (apiConfigCrop id (VidModel.kw k) (VidModel.kh k) (VidModel.kx k) (VidModel.ky k) (deg s id)))) end. rewrite C.
  cbn [obey]. eexists. split; [reflexivity|]. apply (In_mfind _ None _ _ SM) in I0. unfold setCrop, VidModel.configCrop. rewrite I0. destruct (_ || _); [reflexivity|]. rewrite !Z.eqb_refl. cbn [andb fst snd].
  cbn [report base ftime VidModel.crops deg]. f_equal. f_equal. f_equal. f_equal. f_equal.
  replace (VidModel.mkCrop (VidModel.kw k) (VidModel.kh k) (VidModel.kx k) (VidModel.ky k) (VidModel.target k)) with k by (destruct k; reflexivity). rewrite mset_same by assumption.
  apply map_ext. intros [i c]. unfold cropNode. cbn [fst snd deg]. destruct (Z.eqb_spec i id) as [->|]; reflexivity.
Qed.
Lemma no_fps m : absent (report (VMix m)) "fps". Proof. apply absent_obj. reflexivity. Qed.
Lemma no_bitrate s : absent (report (AEnc s)) "bitrate". Proof. apply absent_obj. reflexivity. Qed.
Lemma back_size v id r m : settled (VMix m) -> plainState (VMix m) -> send v (VMix m) "configure" (Obj (filterNode id r (VMix m))) = Some (VMix m).
Proof.
  intros (A & B & _) P. pose proof (node_tells id r (VMix m) P Logic.I) as (T1 & T2 & _). unfold send. cbn [view].
  rewrite (carried_out _ _ _ _ (as_size m (filterNode id r (VMix m)) _ _ None T1 T2 (absent_node id r (VMix m) "fps" eq_refl (no_fps m)))). cbn [obey VidModel.vmStep given]. f_equal. f_equal.
  unfold VidModel.configure. destruct (_ || _); [reflexivity|]. destruct m; reflexivity.
Qed.
Lemma back_adec v id r s : plainState (ADec s) -> exists s', send v (ADec s) "configure" (Obj (filterNode id r (ADec s))) = Some (ADec s') /\ AdcModel.fCodec s' = AdcModel.fCodec s /\ AdcModel.out s' = AdcModel.out s.
Proof.
  intros P. pose proof (node_tells id r (ADec s) P Logic.I) as (T1 & T2 & T3 & T4). unfold send. cbn [view].
  rewrite (carried_out _ _ _ _ (as_decode (filterNode id r (ADec s)) (Some _) (Some _) (Some _) T4 T3 T2)). cbn [obey]. eexists. split; [reflexivity|].
  unfold AdcModel.configEvent, AdcModel.inputConfig. cbv zeta. cbn [AdcModel.qFmt AdcModel.qCh AdcModel.qRate AdcModel.dflt].
  replace (AdcModel.mkPar (AdcModel.pfmt (AdcModel.out s)) (AdcModel.pch (AdcModel.out s)) (AdcModel.prate (AdcModel.out s))) with (AdcModel.out s) by (destruct (AdcModel.out s); reflexivity).
  destruct (_ && _); [split; reflexivity|]. destruct (alloc v _ _); [|split; reflexivity]. destruct (AdcModel.conv _); try (destruct (init v _ _)); split; reflexivity.
Qed.
Lemma back_aenc v id r s : plainState (AEnc s) -> exists s', send v (AEnc s) "configure" (Obj (filterNode id r (AEnc s))) = Some (AEnc s') /\
  AenModel.ecodec s' = AenModel.ecodec s /\ AenModel.erate s' = AenModel.erate s /\ AenModel.ech s' = AenModel.ech s /\ AenModel.ebit s' = AenModel.ebit s.
Proof.
  intros P. pose proof (node_tells id r (AEnc s) P Logic.I) as (T1 & T2 & T3). unfold send. cbn [view].
  rewrite (carried_out _ _ _ _ (as_aencode (filterNode id r (AEnc s)) (Some _) (Some _) (Some _) None T1 T3 T2 (absent_node id r (AEnc s) "bitrate" eq_refl (no_bitrate s)))). cbn [obey]. eexists. split; [reflexivity|].
  unfold AenModel.configure. destruct (AenModel.ecodec s) eqn:E; cbn [fst]; try (rewrite ?E; repeat split; reflexivity).
Qed.
Lemma signed_id z : int32 z -> 0 <= z -> EncModel.asUnsigned z = z.
Proof. unfold int32, EncModel.asUnsigned. intros A B. apply Z.mod_small. lia. Qed.
Lemma back_venc v id r e : settled (VEnc e) -> plainState (VEnc e) -> exists e', send v (VEnc e) "configure" (Obj (filterNode id r (VEnc e))) = Some (VEnc e') /\ EncModel.refTime e' = EncModel.refTime e /\
  let s := EncModel.set e in EncModel.set e' = EncModel.mkSet (EncModel.bitrate s) (EncModel.fps s) (EncModel.gop s) (EncModel.lookahead s) (EncModel.threads s) (EncModel.bFrames s) (EncModel.annexb s) (EncModel.preset s) (1000000 / EncModel.fps s) (EncModel.gopTime s).
Proof.
  intros V P. pose proof (node_tells id r (VEnc e) P Logic.I) as T. cbn [tells] in T. cbv zeta in T. destruct T as (T1 & T2 & T3 & T4 & _ & T5 & T6 & T7 & T8 & T9). unfold send. cbn [view].
  rewrite (carried_out _ _ _ _ (as_encode (filterNode id r (VEnc e)) (Some _) (Some _) (Some _) (Some _) (Some _) (Some _) (Some _) (Some _) (Some _) T1 T2 T3 T5 T8 T6 T7 T9 T4)). cbn [obey]. eexists. split; [reflexivity|].
  destruct V as (V1 & V2 & V3 & V4 & V5 & V6 & V7 & _). cbn [plainState] in P. cbv zeta in P. splits. cbv zeta. set (s := EncModel.set e) in *. cbn [option_map]. rewrite text_lit.
  unfold EncModel.configEvent. cbv zeta. cbn [EncModel.rBitrate EncModel.rFps EncModel.rGop EncModel.rLookahead EncModel.rThreads EncModel.rPreset EncModel.rGopTime EncModel.rBframes EncModel.rAnnexb EncModel.pickU EncModel.pick]. fold s.
  unfold EncModel.MIN_GOP_TIME in *. rewrite !signed_id by (assumption || lia). unfold EncModel.configure0.
  destruct (Z.leb_spec (EncModel.bitrate s) 0), (Z.leb_spec (EncModel.gop s) 0), (Z.ltb_spec (EncModel.lookahead s) 0), (Z.leb_spec (EncModel.threads s) 0), (Z.leb_spec (EncModel.fps s) 0); try lia.
  destruct (String.eqb_spec (EncModel.preset s) ""); [contradiction|]. cbn [orb fst EncModel.set EncModel.refTime]. split; [reflexivity|]. f_equal.
  unfold EncModel.MIN_GOP_TIME. destruct (Z.gtb_spec (EncModel.gopTime s) 0); [|lia]. destruct (Z.ltb_spec (EncModel.gopTime s) 1000000); [lia|reflexivity].
Qed.
(** The dasher is not changed at all. *)
Lemma dash_absent d k : existsb (String.eqb k) ["folder"; "baseName"; "mpdURI"; "segDurInSec"; "maxSegments"; "minBufferTime"; "readers"] = false -> absent (report (Dash d)) k.
Proof.
  intros K. cbn [report]. apply absent_obj. cbn [existsb] in K. rewrite !orb_false_iff in K. destruct K as (K1 & K2 & K3 & K4 & K5 & K6 & K7 & _).
  destruct (MpdModel.mgr d); cbn [app existsb fst]; rewrite ?K1, ?K2, ?K3, ?K4, ?K5, ?K6, ?K7; reflexivity.
Qed.
Lemma back_dash_as v d c : settled (Dash d) -> short (Dash d) -> text c "folder" (MpdModel.basePath d) -> text c "baseName" (MpdModel.baseName d) -> number c "segDurInSec" (MpdModel.segDur d) ->
  absent c "maxSeg" -> absent c "minBuffTime" -> send v (Dash d) "configure" (Obj c) = Some (Dash d).
Proof.
  intros V SH T1 T2 T3 A1 A2. unfold send. cbn [view]. cbn [settled] in V. unfold okDash in V. cbn [short] in SH. destruct (MpdModel.mgr d) as [m|] eqn:EM.
  - destruct (SH m eq_refl) as [S1 S2]. destruct V as (V1 & V2 & V3 & a & b & m0 & V4 & V5).
    rewrite (carried_out _ _ _ _ (as_dash d c (Some _) (Some _) (Some _) None None T1 T2 (conj T3 S1) A1 A2)).
    cbn [obey given]. f_equal. f_equal. rewrite EM. unfold MpdModel.configure. destruct (writable v); cbn [negb]; [|reflexivity]. destruct (MpdModel.baseName d) as [|ch bn] eqn:EB; [reflexivity|]. destruct (Z.eqb_spec (MpdModel.segDur d) 0); [reflexivity|]. cbn [snd].
    rewrite V1, EM, <- EB. assert (CM : MpdModel.configureM (MpdModel.minBufferTime m) (MpdModel.maxSeg m) (MpdModel.segDur d) m = m).
    { unfold MpdModel.configureM, MpdModel.u32, MpdModel.MIN_SEGMENT in *. cbv zeta in *. cbn [MpdModel.maxSeg MpdModel.minBufferTime] in V4, V5. rewrite <- V4 in V5. destruct m as [ms mb vs au]. cbn [MpdModel.maxSeg MpdModel.minBufferTime MpdModel.vset MpdModel.audset] in *.
      assert (M2 : 2 <= ms) by (rewrite V4; destruct (Z.leb_spec 2 b); lia). clear V4. destruct (Z.leb_spec 2 ms); [|lia].
      change 4294967296 with (2 ^ 32) in *. rewrite (Z.mod_small (ms * MpdModel.segDur d)), (Z.mod_small (2 * MpdModel.segDur d)) in * by nia. f_equal.
      destruct (Z.leb_spec (ms * MpdModel.segDur d) a); [subst mb; rewrite Z.leb_refl; reflexivity|]. destruct (Z.leb_spec (2 * MpdModel.segDur d) a).
      - subst mb. destruct (Z.leb_spec (ms * MpdModel.segDur d) a); [lia|]. destruct (Z.leb_spec (2 * MpdModel.segDur d) a); [reflexivity|lia].
      - subst mb. destruct (Z.leb_spec (ms * MpdModel.segDur d) (2 * MpdModel.segDur d)); [nia|]. rewrite Z.leb_refl. reflexivity. }
    rewrite CM, <- EM. destruct d; reflexivity.
  - pose proof (reads_text _ _ _ T2) as RB. unfold event, dasherEvent. closed. unfold configureDasher. cbn [onObject gmap]. rewrite (rd_guarded _ _ _ _ _ RB). cbn [dflt]. rewrite V. cbn [obey]. f_equal. f_equal.
    unfold MpdModel.configure. destruct (writable v); reflexivity.
Qed.
Lemma back_dash v id r d : settled (Dash d) -> plainState (Dash d) -> short (Dash d) -> send v (Dash d) "configure" (Obj (filterNode id r (Dash d))) = Some (Dash d).
Proof.
  intros V P SH. pose proof (node_tells id r (Dash d) P Logic.I) as T. cbn [tells] in T. destruct T as (T1 & T2 & T3 & _).
  apply back_dash_as; try assumption; (apply (absent_node id r (Dash d)); [reflexivity|apply dash_absent; reflexivity]).
Qed.
Lemma back_same v st a o : settled st -> plainState st -> short st -> back st a o -> exists st', send v st a (Obj o) = Some st' /\ report st' = report st.
Proof.
  intros S0 P SH B. destruct B as [n m o l M I0|m o l M I0|s o l M I0|st id r K].
  - eexists. split; [eapply back_gain; eassumption|reflexivity].
  - eexists. split; [eapply back_channel; eassumption|reflexivity].
  - destruct (back_crop v s o l S0 P M I0) as (s' & A & B). eauto.
  - destruct st; try (destruct K; fail).
    + eexists. split; [apply back_size; assumption|reflexivity].
    + destruct (back_adec v id r s P) as (s' & A & B & C). eexists. split; [exact A|]. cbn [report]. rewrite B, C. reflexivity.
    + destruct (back_aenc v id r s P) as (s' & A & B & C & D & _). eexists. split; [exact A|]. cbn [report]. rewrite B, C, D. reflexivity.
    + destruct (back_venc v id r e S0 P) as (s' & A & B & C). eexists. split; [exact A|]. cbn [report]. cbv zeta in *. rewrite B, C. reflexivity.
    + eexists. split; [apply back_dash; assumption|reflexivity].
Qed.
