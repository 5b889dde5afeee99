(** Proofs about the reports of state: setting and telling. *)
From Coq Require Import Ascii String Sorting.Sorted.
From Verif Require Import Base ZMap F32 JsonModel NamesModel NamesProps CtlModel CtlSpec CtlProofs FtxModel FtxSpec FtxProofs FtxProps EvtModel EvtSpec EvtProofs RepModel RepSpec RepProofs.
From Verif Require PipeModel MixModel VidModel AdcModel AenModel EncModel MpdModel VidProofs EncProofs MpdProofs.
Local Open Scope string_scope.
Local Open Scope list_scope.
Local Open Scope Z_scope.

(** *** What holds of the states filters get into. *)
Definition okGains (m : MixModel.mixer) : Prop := msorted (MixModel.gains m) /\ forall id g, mfind id (MixModel.gains m) = Some g -> 0 <= g <= one.
Definition okDash (d : MpdModel.dasher) : Prop :=
  match MpdModel.mgr d with
  | None => MpdModel.baseName d = []
  | Some m => MpdModel.withSlash (MpdModel.basePath d) = MpdModel.basePath d /\ MpdModel.baseName d <> [] /\ MpdModel.segDur d <> 0 /\
      exists a b m0, MpdModel.maxSeg m = MpdModel.maxSeg (MpdModel.configureM a b (MpdModel.segDur d) m0) /\ MpdModel.minBufferTime m = MpdModel.minBufferTime (MpdModel.configureM a b (MpdModel.segDur d) m0)
  end.
Definition settled (st : state) : Prop :=
  match st with
  | AMix _ m => okGains m
  | VMix m => VidProofs.okVM m
  | Split s => msorted (VidModel.crops (base s))
  | VEnc e => EncProofs.validSet (EncModel.set e)
  | Dash d => okDash d
  | _ => True
  end.
Lemma set_gains m id g n : okGains m -> 0 <= g <= one -> MixModel.gains n = mset id g (MixModel.gains m) -> okGains n.
Proof.
  intros [A B] G E. split; rewrite E; [apply msorted_mset, A|]. intros i x. rewrite mfind_mset. destruct (i =? id); [|apply B]. intros X. injection X as <-. exact G.
Qed.
Lemma same_gains m n : okGains m -> MixModel.gains n = MixModel.gains m -> okGains n.
Proof. intros H E. unfold okGains. rewrite E. exact H. Qed.
Lemma one_nonneg : 0 <= one. Proof. unfold one. lia. Qed.
Lemma setGain_ok id v m : okGains m -> okGains (MixModel.setGain id v m).
Proof.
  intros H. unfold MixModel.setGain. destruct (mmem id (MixModel.gains m)); [|exact H]. eapply set_gains; [exact H| |reflexivity].
  pose proof one_nonneg. destruct (Z.ltb_spec one v); [lia|]. destruct (Z.ltb_spec v 0); lia.
Qed.
Lemma mixAt_ok id pos f m : okGains m -> okGains (MixModel.mixAt id pos f m).
Proof.
  intros H. pose proof one_nonneg. unfold MixModel.mixAt. destruct (mfind id (MixModel.gains m)) eqn:E; [eapply same_gains; [exact H|reflexivity]|].
  destruct (0 <? MixModel.fn f); [eapply set_gains; [exact H| |reflexivity]; lia|eapply same_gains; [exact H|reflexivity]].
Qed.
Lemma step_gains e m : okGains m -> okGains (snd (MixModel.step e m)).
Proof.
  intros H. pose proof one_nonneg. destruct e as [id f| |id v|id|v|id|id]; cbn [MixModel.step].
  - unfold MixModel.push. destruct (_ <? MixModel.fn f); [exact H|]. cbv zeta. set (m1 := if MixModel.syncTs m <? 0 then _ else m). assert (H1 : okGains m1) by (subst m1; destruct (MixModel.syncTs m <? 0); exact H). clearbody m1.
    destruct (_ <? MixModel.front m1); [exact H1|]. destruct (_ <? _); cbn [snd]; apply mixAt_ok; exact H1.
  - unfold MixModel.extract. destruct (_ <? MixModel.thresh m); exact H.
  - apply setGain_ok, H.
  - cbn [snd]. unfold MixModel.solo. destruct (mmem id (MixModel.gains m)); [|exact H]. generalize (setGain_ok id one m H). generalize (MixModel.setGain id one m). generalize (mkeys (MixModel.gains m)).
    intros l. induction l as [|k l IH]; intros m1 H1; [exact H1|]. cbn [fold_left]. apply IH. destruct (k =? id); [exact H1|apply setGain_ok, H1].
  - exact H.
  - cbn [snd]. eapply set_gains; [exact H| |reflexivity]. lia.
  - cbn [snd]. destruct H as [A B]. split; cbn [MixModel.putGains MixModel.gains]; [apply msorted_mdel, A|]. intros i g. rewrite mfind_mdel by exact A. destruct (i =? id); [discriminate|apply B].
Qed.

(** The settings of the dasher: what is not changed by inputs and rounds. *)
Definition fixed (d d' : MpdModel.dasher) : Prop :=
  MpdModel.basePath d' = MpdModel.basePath d /\ MpdModel.baseName d' = MpdModel.baseName d /\ MpdModel.segDur d' = MpdModel.segDur d /\
  option_map (fun m => (MpdModel.maxSeg m, MpdModel.minBufferTime m)) (MpdModel.mgr d') = option_map (fun m => (MpdModel.maxSeg m, MpdModel.minBufferTime m)) (MpdModel.mgr d).
Lemma fixed_refl d : fixed d d. Proof. repeat split. Qed.
Lemma fixed_trans a b c : fixed a b -> fixed b c -> fixed a c.
Proof. unfold fixed. intros (A1 & A2 & A3 & A4) (B1 & B2 & B3 & B4). repeat split; congruence. Qed.
Lemma fixed_fold {X} (f : MpdModel.dasher -> X -> MpdModel.dasher) (l : list X) : (forall d x, fixed d (f d x)) -> forall d, fixed d (fold_left f l d).
Proof. intros H. induction l as [|x l IH]; intros d; [apply fixed_refl|]. cbn [fold_left]. eapply fixed_trans; [apply H|apply IH]. Qed.
Lemma fixed_slots s x d : fixed d (MpdModel.putSlots s x d). Proof. destruct s; repeat split. Qed.
Lemma fixed_files x d : fixed d (MpdModel.putFiles x d). Proof. repeat split. Qed.
Lemma putSet_keeps s x m : MpdModel.maxSeg (MpdModel.putSet s x m) = MpdModel.maxSeg m /\ MpdModel.minBufferTime (MpdModel.putSet s x m) = MpdModel.minBufferTime m.
Proof. destruct s; split; reflexivity. Qed.
Lemma fixed_onMgr f d : (forall m, MpdModel.maxSeg (f m) = MpdModel.maxSeg m /\ MpdModel.minBufferTime (f m) = MpdModel.minBufferTime m) -> fixed d (MpdModel.onMgr f d).
Proof.
  intros H. unfold MpdModel.onMgr. destruct (MpdModel.mgr d) as [m|] eqn:E; [|apply fixed_refl]. destruct (H m) as [A B]. unfold fixed, MpdModel.putMgr. cbn [MpdModel.basePath MpdModel.baseName MpdModel.segDur MpdModel.mgr].
  rewrite E. cbn [option_map]. rewrite A, B. repeat split.
Qed.
Lemma fixed_manifest d : fixed d (MpdModel.writeManifest d).
Proof. unfold MpdModel.writeManifest. destruct (MpdModel.mgr d); [apply fixed_files|apply fixed_refl]. Qed.
Lemma fixed_complete s id g d : fixed d (MpdModel.complete s id g d).
Proof.
  unfold MpdModel.complete. destruct g as [[ts du] data]. eapply fixed_trans; [apply fixed_slots|]. apply fixed_onMgr. intros m. unfold MpdModel.updateRepresentation. apply putSet_keeps.
Qed.
Lemma fixed_frame g d : fixed d (MpdModel.oneFrame g d).
Proof.
  unfold MpdModel.oneFrame. cbv zeta. destruct (if mmem (MpdModel.gid g) (MpdModel.vslots d) then _ else _) as [s|]; [|apply fixed_refl].
  set (d1 := match MpdModel.ginit g with None => d | Some b => _ end). assert (F1 : fixed d d1) by (subst d1; destruct (MpdModel.ginit g); [apply fixed_files|apply fixed_refl]). clearbody d1.
  destruct (MpdModel.gseg g) as [x|]; [|exact F1]. destruct s; [eapply fixed_trans; [exact F1|apply fixed_complete]|]. destruct (MpdModel.hasVideo d1); [exact F1|eapply fixed_trans; [exact F1|apply fixed_complete]].
Qed.
Lemma fixed_force l f : forall d, fixed d (MpdModel.forceAudio l f d).
Proof. induction l as [|i l IH]; intros d; cbn [MpdModel.forceAudio]; [apply fixed_refl|]. destruct (f i); [eapply fixed_trans; [apply fixed_complete|apply IH]|apply fixed_refl]. Qed.
Lemma fixed_side s f d : fixed d (MpdModel.writeSide s f d).
Proof.
  unfold MpdModel.writeSide. destruct (MpdModel.slotsOf s d) as [|[i x] r]; [apply fixed_refl|]. destruct (negb _); [apply fixed_refl|]. cbv zeta.
  set (d1 := match s with MpdModel.V => _ | MpdModel.A => d end). assert (F1 : fixed d d1) by (subst d1; destruct s; [apply fixed_force|apply fixed_refl]). clearbody d1.
  set (d2 := MpdModel.writeAll s (MpdModel.sts x) d1). assert (F2 : fixed d d2).
  { eapply fixed_trans; [exact F1|]. subst d2. unfold MpdModel.writeAll. eapply fixed_trans; [apply fixed_slots|apply fixed_files]. }
  clearbody d2. destruct (MpdModel.mgr d2) as [m|] eqn:EM; [|exact F2]. destruct (MpdModel.updateAdaptationSetTimestamp _ _ _ m) as [rm m'] eqn:EU.
  assert (F3 : fixed d (MpdModel.writeManifest (MpdModel.putMgr m' d2))).
  { eapply fixed_trans; [exact F2|]. eapply fixed_trans; [|apply fixed_manifest]. unfold fixed, MpdModel.putMgr. cbn [MpdModel.basePath MpdModel.baseName MpdModel.segDur MpdModel.mgr]. rewrite EM. cbn [option_map].
    unfold MpdModel.updateAdaptationSetTimestamp in EU. destruct (MpdModel.setOf s m); [|injection EU as _ <-; repeat split]. destruct (MpdModel.updateTimestamp _ _ _ _). injection EU as _ <-.
    destruct (putSet_keeps s a0 m) as [A B]. rewrite A, B. repeat split. }
  destruct (0 <? rm); [|exact F3]. eapply fixed_trans; [exact F3|apply fixed_files].
Qed.
Lemma fixed_round gs f d : fixed d (MpdModel.round gs f d).
Proof.
  unfold MpdModel.round. destruct (MpdModel.mgr d); [|apply fixed_refl]. eapply fixed_trans; [|apply fixed_side]. eapply fixed_trans; [|apply fixed_side]. apply fixed_fold. intros d1 g. apply fixed_frame.
Qed.
Lemma fixed_add s id d : fixed d (snd (MpdModel.addReader s id d)).
Proof.
  unfold MpdModel.addReader. destruct (MpdModel.mgr d) eqn:E; [|apply fixed_refl]. destruct (_ || _); [apply fixed_refl|]. cbv zeta. cbn [snd]. destruct s; repeat split.
Qed.
Lemma fixed_delete id d : fixed d (snd (MpdModel.deleteReader id d)).
Proof.
  unfold MpdModel.deleteReader. destruct (negb _); [apply fixed_refl|]. cbv zeta. cbn [snd]. eapply fixed_trans; [|apply fixed_manifest].
  assert (K : forall s d, fixed d (if mmem id (MpdModel.slotsOf s d) then MpdModel.onMgr (MpdModel.removeRepresentation s (intText id)) (MpdModel.putSlots s (mdel id (MpdModel.slotsOf s d)) d) else d)).
  { intros s d0. destruct (mmem id (MpdModel.slotsOf s d0)); [|apply fixed_refl]. eapply fixed_trans; [apply fixed_slots|]. apply fixed_onMgr. intros m. unfold MpdModel.removeRepresentation.
    destruct (MpdModel.setOf s m); [apply putSet_keeps|split; reflexivity]. }
  eapply fixed_trans; [apply (K MpdModel.V)|]. eapply fixed_trans; [apply (K MpdModel.A)|]. repeat split.
Qed.
Lemma fixed_ok d d' : fixed d d' -> okDash d -> okDash d'.
Proof.
  intros (A & B & C & D) H. unfold okDash in *. rewrite A, B, C. destruct (MpdModel.mgr d) as [m|], (MpdModel.mgr d') as [m'|]; cbn [option_map] in D; try discriminate; [|exact H].
  injection D as D1 D2. rewrite D1, D2. exact H.
Qed.
Lemma streqb_eq a b : MpdModel.streqb a b = true <-> a = b.
Proof. unfold MpdModel.streqb. destruct (list_eq_dec ascii_dec a b); intuition congruence. Qed.
Lemma slash_end p : MpdModel.withSlash (p ++ lit "/") = p ++ lit "/".
Proof.
  unfold MpdModel.withSlash. replace (skipn (List.length (p ++ lit "/") - 1) (p ++ lit "/")) with (lit "/"); [reflexivity|]. rewrite app_length. change (List.length (lit "/")) with 1%nat. replace (List.length p + 1 - 1)%nat with (List.length p) by lia.
  rewrite skipn_app, skipn_all, Nat.sub_diag. reflexivity.
Qed.
Lemma slash_idem p : MpdModel.withSlash (MpdModel.withSlash p) = MpdModel.withSlash p.
Proof.
  unfold MpdModel.withSlash at 2 3. destruct (MpdModel.streqb (skipn (List.length p - 1) p) (lit "/")) eqn:E; [|apply slash_end]. unfold MpdModel.withSlash. rewrite E. reflexivity.
Qed.
Lemma dash_step o d : okDash d -> okDash (MpdModel.step o d).
Proof.
  intros H. destruct o as [f b du ms mb w|s id|id|gs f]; cbn [MpdModel.step].
  - unfold MpdModel.configure. destruct w; cbn [negb]; [|exact H]. destruct b as [|c b]; [exact H|]. destruct (Z.eqb_spec du 0); [exact H|]. cbn [snd]. unfold okDash. cbn [MpdModel.mgr MpdModel.basePath MpdModel.baseName MpdModel.segDur].
    split; [apply slash_idem|]. split; [discriminate|]. split; [assumption|]. eexists _, _, _. split; reflexivity.
  - eapply fixed_ok; [apply fixed_add|exact H].
  - eapply fixed_ok; [apply fixed_delete|exact H].
  - eapply fixed_ok; [apply fixed_round|exact H].
Qed.
Lemma lives_settled st : lives st -> settled st.
Proof.
  induction 1; cbn [settled] in *; try exact Logic.I.
  - split; [exact Logic.I|]. cbn. discriminate.
  - apply step_gains, IHlives.
  - apply (proj1 (VidProofs.newVM_ok _ _ _ _ _ H)).
  - apply (proj1 (VidProofs.vmStep_ok e m IHlives)).
  - unfold addCrop. destruct (fst _); [|assumption]. cbn [base]. unfold VidModel.addCrop. destruct (mmem id _); cbn [snd VidModel.crops]; [assumption|apply msorted_mset; assumption].
  - unfold setCrop. cbv zeta. destruct (fst _); [|assumption]. cbn [base]. unfold VidModel.configCrop. destruct (mfind id _); [|assumption]. destruct (_ || _); cbn [snd VidModel.crops]; [assumption|apply msorted_mset; assumption].
  - assumption.
  - cbn [base]. unfold VidModel.delCrop. destruct (mmem id _); cbn [snd VidModel.crops]; [apply msorted_mdel; assumption|assumption].
  - cbn [base VidModel.spStep]. destruct (VidModel.split W H p dsts (base s)) as [[l s']| |] eqn:E; [|assumption|assumption]. revert E IHlives. generalize (base s). clear H0. revert l s'.
    induction dsts as [|[id b] r IH]; intros l s' s0 E OK; cbn [VidModel.split] in E; [injection E as <- <-; exact OK|].
    destruct (mfind id (VidModel.crops s0)) as [k|] eqn:M; [|discriminate]. cbv zeta in E.
    match type of E with (if ?c then _ else _) = _ => destruct c; [discriminate E|] end.
    match type of E with (if ?c then _ else _) = _ => destruct c end; [destruct (VidModel.split W H p r s0) as [[l1 s1]| |] eqn:R; try discriminate E; injection E as <- <-; apply (IH l1 s1 s0 R OK)|].
    match type of E with (if ?c then _ else _) = _ => destruct c; [discriminate E|] end.
    match type of E with (if ?c then _ else _) = _ => destruct c end; [destruct (VidModel.split W H p r s0) as [[l1 s1]| |] eqn:R; try discriminate E; injection E as <- <-; apply (IH l1 s1 s0 R OK)|].
    match type of E with (if ?c then _ else _) = _ => destruct c; [discriminate E|] end.
    match type of E with (if ?c then _ else _) = _ => destruct c; [discriminate E|] end.
    match type of E with match VidModel.split W H p r ?x with _ => _ end = _ => destruct (VidModel.split W H p r x) as [[l1 s2]| |] eqn:R; try discriminate E end.
    apply (f_equal (fun x => match x with VidModel.Ok a => snd a | _ => s0 end)) in E. cbn [snd] in E. subst s2. apply (IH _ _ _ R). apply msorted_mset, OK.
  - exact EncProofs.valid0.
  - destruct (EncModel.step l o e) as [e' xs] eqn:E. cbn [fst]. apply (EncProofs.step_valid l o e e' xs IHlives E).
  - reflexivity.
  - apply dash_step, IHlives.
Qed.
