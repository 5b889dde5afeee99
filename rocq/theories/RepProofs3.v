(** Proofs about the reports of state: what is set is told. *)
From Coq Require Import Ascii String Sorting.Sorted.
From Verif Require Import Base ZMap F32 JsonModel NamesModel NamesProps CtlModel CtlSpec CtlProofs FtxModel FtxSpec FtxProofs FtxProps EvtModel EvtSpec EvtProofs RepModel RepSpec RepProofs RepProofs2.
From Verif Require PipeModel MixModel VidModel AdcModel AenModel EncModel MpdModel VidProofs EncProofs MpdProofs.
Local Open Scope string_scope.
Local Open Scope list_scope.
Local Open Scope Z_scope.

(** *** A member has one value. *)
Lemma member_fun c k n n' : member c k n -> member c k n' -> n = n'.
Proof. intros A B. apply child_member in A, B. congruence. Qed.
Lemma number_fun c k z z' : number c k z -> number c k z' -> z = z'.
Proof. intros A B. pose proof (rd_take _ _ _ _ _ (reads_number _ _ _ A)). pose proof (rd_take _ _ _ _ _ (reads_number _ _ _ B)). congruence. Qed.
Lemma real_fun c k z z' : real c k z -> real c k z' -> z = z'.
Proof. intros A B. pose proof (rd_take _ _ _ _ _ (reads_real _ _ _ A)). pose proof (rd_take _ _ _ _ _ (reads_real _ _ _ B)). congruence. Qed.
Lemma text_fun c k z z' : text c k z -> text c k z' -> z = z'.
Proof. intros A B. pose proof (rd_take _ _ _ _ _ (reads_text _ _ _ A)). pose proof (rd_take _ _ _ _ _ (reads_text _ _ _ B)). congruence. Qed.
Lemma flag_fun c k z z' : flag c k z -> flag c k z' -> z = z'.
Proof. intros A B. pose proof (rd_take _ _ _ _ _ (reads_flag _ _ _ A)). pose proof (rd_take _ _ _ _ _ (reads_flag _ _ _ B)). congruence. Qed.
Lemma absent_member c k n : absent c k -> member c k n -> False.
Proof. intros A M. apply A. apply member_in in M. apply in_map_iff. exists (lit k, n). auto. Qed.
Lemma maybe_number c k o z : maybe number c k o -> number c k z -> o = Some z.
Proof. destruct o; cbn [maybe]; intros A B; [f_equal; eapply number_fun; eassumption|]. destruct B as (s & M & _). destruct (absent_member _ _ _ A M). Qed.
Lemma maybe_natural c k o z : maybe natural c k o -> number c k z -> o = Some z.
Proof. destruct o; cbn [maybe]; intros A B; [f_equal; eapply number_fun; [apply A|eassumption]|]. destruct B as (s & M & _). destruct (absent_member _ _ _ A M). Qed.
Lemma maybe_text c k o z : maybe text c k o -> text c k z -> o = Some z.
Proof. destruct o; cbn [maybe]; intros A B; [f_equal; eapply text_fun; eassumption|]. destruct (absent_member _ _ _ A B). Qed.
Lemma maybe_flag c k o z : maybe flag c k o -> flag c k z -> o = Some z.
Proof. destruct o; cbn [maybe]; intros A B; [f_equal; eapply flag_fun; eassumption|]. destruct (absent_member _ _ _ A B). Qed.
Lemma maybe_named {E} (show : E -> string) none c k o z : maybe (named show none) c k o -> text c k z -> o <> Some none -> exists e, o = Some e /\ z = lit (show e).
Proof.
  destruct o as [e|]; cbn [maybe]; intros A B N; [|destruct (absent_member _ _ _ A B)]. destruct A as (s & M & [[_ H]|[H _]]); [|congruence]. exists e. split; [reflexivity|]. rewrite <- H. eapply text_fun; eassumption.
Qed.
Lemma number_int c k z : number c k z -> int32 z.
Proof. intros (s & _ & [B _]). exact B. Qed.
Ltac give := repeat match goal with
  | H : number ?c ?k ?z, H' : number ?c ?k ?z' |- _ => tryif constr_eq z z' then fail else (pose proof (number_fun _ _ _ _ H H'); subst z'; clear H')
  | H : real ?c ?k ?z, H' : real ?c ?k ?z' |- _ => tryif constr_eq z z' then fail else (pose proof (real_fun _ _ _ _ H H'); subst z'; clear H')
  | H : text ?c ?k ?z, H' : text ?c ?k ?z' |- _ => tryif constr_eq z z' then fail else (pose proof (text_fun _ _ _ _ H H'); subst z'; clear H')
  | H : flag ?c ?k ?z, H' : flag ?c ?k ?z' |- _ => tryif constr_eq z z' then fail else (pose proof (flag_fun _ _ _ _ H H'); subst z'; clear H')
  | H : maybe number ?c ?k ?o, H' : number ?c ?k ?z |- _ => pose proof (maybe_number _ _ _ _ H H'); subst o; clear H
  | H : maybe natural ?c ?k ?o, H' : number ?c ?k ?z |- _ => pose proof (maybe_natural _ _ _ _ H H'); subst o; clear H
  | H : maybe text ?c ?k ?o, H' : text ?c ?k ?z |- _ => pose proof (maybe_text _ _ _ _ H H'); subst o; clear H
  | H : maybe flag ?c ?k ?o, H' : flag ?c ?k ?z |- _ => pose proof (maybe_flag _ _ _ _ H H'); subst o; clear H
  end.
Local Opaque ofInt floatNode ofText ofBool cast toF decimal intText F32.one.
(** The goals of [agree], one for each parameter. *)
Ltac params := unfold agree; repeat (apply Forall_cons; [cbn [fst snd]; let T := fresh "T" in intros ? T; cbn in T; try discriminate T; injection T as <-; intros|]); [..|apply Forall_nil].
Ltac ints := repeat match goal with H : number ?c ?k ?z |- _ => lazymatch goal with _ : int32 z |- _ => fail | _ => pose proof (number_int _ _ _ H) end end.

Lemma obj_inj a b : Obj a = Obj b -> a = b. Proof. congruence. Qed.
(** The entries of a list in a report. *)
Lemma entry {A} (f : Z * A -> node) (m : zmap A) c k l o id :
  member c k (Arr (map f m)) -> member c k (Arr l) -> In (Obj o) l -> number o "id" id ->
  (forall x o, f x = Obj o -> member o "id" (ofInt (fst x))) -> (forall x, In x m -> int32 (fst x)) -> exists v, In (id, v) m /\ f (id, v) = Obj o.
Proof.
  intros M M' I0 N F P. pose proof (member_fun _ _ _ _ M M') as E. injection E as <-. apply in_map_iff in I0. destruct I0 as ([j v] & E & I0).
  assert (j = id); [|subst; eauto]. pose proof (F _ _ E) as Q. apply m_number in Q; [|apply (P _ I0)]. apply (number_fun _ _ _ _ Q N).
Qed.
Lemma mset_keys {A} (m : zmap A) id v : mmem id m = true -> msorted m -> (forall x, In x m -> int32 (fst x)) -> forall x, In x (mset id v m) -> int32 (fst x).
Proof.
  intros I0 S0 H [i x] J. apply (In_mfind _ None i x (msorted_mset m id v S0)) in J. rewrite mfind_mset in J. cbn [fst]. destruct (Z.eqb_spec i id) as [->|].
  - unfold mmem in I0. destruct (mfind id m) eqn:E; [|discriminate]. apply mfind_In in E. apply (H _ E).
  - apply mfind_In in J. apply (H _ J).
Qed.

Definition toldBack (v : env) (st : state) (f : filter) : Prop := forall a c o l, settled st -> plainState st -> asks f a c o -> within v st c o -> In (a, l) (table f) ->
  (exists ob, about (obey v o st) a c ob) /\ forall ob, about (obey v o st) a c ob -> agree st a c ob l /\ muted a ob.
Ltac pick H := repeat (destruct H as [H|H]; [first [discriminate H | apply (f_equal snd) in H; cbn [snd] in H; match type of H with _ = ?l => subst l end]|]); [..|destruct H].
Ltac unmuted := let X := fresh "X" in split; intros X; discriminate X.

Lemma told_amix v n m : toldBack v (AMix n m) AudioMixer.
Proof.
  intros a c o l ST P AS W T. destruct ST as [SM SG]. cbn [plainState] in P. destruct P as (_ & _ & PG). assert (PI : forall x, In x (MixModel.gains m) -> int32 (fst x)) by (rewrite Forall_forall in PG; intros x I0; apply (PG x I0)).
  assert (KI : forall (x : Z * Z) o, gainNode x = Obj o -> member o "id" (ofInt (fst x))) by (intros x o0 E; apply obj_inj in E; subst o0; mem).
  assert (G : forall id g, mmem id (MixModel.gains m) = true -> 0 <= g <= one -> MixModel.gains (MixModel.setGain id g m) = mset id g (MixModel.gains m)).
  { intros id g MM B. unfold MixModel.setGain. rewrite MM. cbn [MixModel.gains]. destruct (Z.ltb_spec one g); [lia|]. destruct (Z.ltb_spec g 0); [lia|]. reflexivity. }
  assert (EN : forall id g a (M : mmem id (MixModel.gains m) = true) (B : 0 <= g <= one) (PL : plain g), In a ["changeChannelGain"; "muteChannel"] -> number c "id" id ->
    (exists ob, about (AMix n (MixModel.setGain id g m)) a c ob) /\ forall ob, about (AMix n (MixModel.setGain id g m)) a c ob -> number ob "id" id /\ shown ob "gain" g).
  { intros id g a0 MM B PL IA N. pose proof (number_int _ _ _ N) as NI. split.
    - eexists. eapply ab_gain; [exact IA|exact N|mem| |].
      + rewrite G by assumption. apply in_map_iff. exists (id, g). split; [reflexivity|]. apply mfind_In. rewrite mfind_mset, Z.eqb_refl. reflexivity.
      + cbn [fst snd]. apply m_number; [mem|exact NI].
    - intros ob AB. inversion AB as [n0 m0 a1 c0 o0 id0 l0 Hi Hn Hm Hl Ho|n0 m0 a1 c0 Hi| | | | | | | |]; subst; [|destruct IA as [<-|[<-|[]]]; destruct Hi as [H4|[H4|[]]]; discriminate H4].
      pose proof (number_fun _ _ _ _ N Hn) as <-. cbn [report] in Hm. match type of Hm with member ?r _ _ => assert (HM : member r "gains" (Arr (map gainNode (MixModel.gains (MixModel.setGain id g m))))) by mem end.
      destruct (entry gainNode _ _ "gains" l0 ob id HM Hm Hl Ho KI) as (g' & I1 & E1).
      + rewrite G by assumption. apply mset_keys; assumption.
      + rewrite G in I1 by assumption. apply (In_mfind _ None _ _ (msorted_mset _ _ _ SM)) in I1. rewrite mfind_mset, Z.eqb_refl in I1. injection I1 as <-. apply obj_inj in E1. subst ob. split; [exact Ho|]. apply m_shown; [mem|exact PL]. }
  assert (MA : forall g a (PL : plain g), In a ["changeMasterGain"; "muteMaster"] ->
    (exists ob, about (AMix n (MixModel.setMaster g m)) a c ob) /\ forall ob, about (AMix n (MixModel.setMaster g m)) a c ob -> shown ob "masterGain" g).
  { intros g a0 PL IA. split; [eexists; apply ab_master, IA|]. intros ob AB. inversion AB as [n0 m0 a1 c0 o0 id0 l0 Hi| | | | | | | | |]; subst; [destruct IA as [<-|[<-|[]]]; destruct Hi as [H4|[H4|[]]]; discriminate H4|].
    cbn [report]. apply m_shown; [mem|exact PL]. }
  inversion AS; subst; cbn [within] in W; try (destruct W; fail); cbn [table] in T; pick T; cbn [obey MixModel.step snd].
  - destruct W as (MM & B & PL). destruct (EN id v0 "changeChannelGain" MM B PL) as [X Y]; [left; reflexivity|assumption|]. split; [exact X|]. intros ob AB. destruct (Y ob AB). split; [|unmuted]. params; give; assumption.
  - destruct W as (MM & B & PL). destruct (EN id 0 "muteChannel" MM B PL) as [X Y]; [right; left; reflexivity|assumption|]. split; [exact X|]. intros ob AB. destruct (Y ob AB). split; [params; give; assumption|]. split; [intros _; assumption|intros X0; discriminate X0].
  - destruct (MA v0 "changeMasterGain" W) as [X Y]; [left; reflexivity|]. split; [exact X|]. intros ob AB. pose proof (Y ob AB). split; [|unmuted]. params; give; assumption.
  - destruct (MA 0 "muteMaster" W) as [X Y]; [right; left; reflexivity|]. split; [exact X|]. intros ob AB. pose proof (Y ob AB). split; [apply Forall_nil|]. split; [intros X0; discriminate X0|intros _; assumption].
Qed.

Lemma told_vmix v m : toldBack v (VMix m) (VideoMixer m).
Proof.
  intros a c o l ST P AS W T. destruct ST as (_ & _ & SM & _). cbn [plainState] in P. destruct P as (_ & PG). assert (PI : forall x, In x (VidModel.cfg m) -> int32 (fst x)) by (rewrite Forall_forall in PG; intros x I0; apply (PG x I0)).
  assert (KI : forall (x : Z * VidModel.chan) o, channelNode x = Obj o -> member o "id" (ofInt (fst x))) by (intros x o0 E; apply obj_inj in E; subst o0; mem).
  inversion AS; subst; cbn [within] in W; try (destruct W; fail); cbn [table] in T; pick T; cbn [obey VidModel.vmStep].
  - set (k := VidModel.mkCh w h x y l0 e o0) in *. destruct W as (MM & W1 & W2 & W3 & W4 & W5 & W6 & PL).
    assert (G : snd (VidModel.configChannel id k m) = VidModel.withCfg (mset id k (VidModel.cfg m)) m).
    { unfold VidModel.configChannel. rewrite MM. cbn [negb]. destruct (Z.ltb_spec (VidModel.cx k) 0), (Z.ltb_spec (VidModel.cy k) 0), (Z.leb_spec (VidModel.cw k) 0), (Z.leb_spec (VidModel.ch k) 0), (Z.ltb_spec (VidModel.cop k) 0), (Z.ltb_spec one (VidModel.cop k)); try lia.
      cbn [orb]. destruct (Z.ltb_spec (VidModel.clayer k) 0), (Z.ltb_spec (VidModel.maxCh m) (VidModel.clayer k)); try lia. reflexivity. }
    rewrite G. ints. split.
    + eexists. eapply ab_channel; [eassumption|mem| |].
      * cbn [VidModel.withCfg VidModel.cfg]. apply in_map_iff. exists (id, k). split; [reflexivity|]. apply mfind_In. rewrite mfind_mset, Z.eqb_refl. reflexivity.
      * apply m_number; [mem|assumption].
    + intros ob AB. inversion AB as [| |m0 c0 o1 id0 l1 Hn Hm Hl Ho| | | | | | |]; subst.
      match goal with H : number c "id" id |- _ => pose proof (number_fun _ _ _ _ H Hn) as <- end. cbn [report] in Hm. match type of Hm with member ?r _ _ => assert (HM : member r "channels" (Arr (map channelNode (mset id k (VidModel.cfg m))))) by mem end.
      destruct (entry channelNode _ _ "channels" l1 ob id HM Hm Hl Ho KI) as (g' & I1 & E1).
      * apply mset_keys; assumption.
      * cbn [VidModel.withCfg VidModel.cfg] in I1. apply (In_mfind _ None _ _ (msorted_mset _ _ _ SM)) in I1. rewrite mfind_mset, Z.eqb_refl in I1. injection I1 as <-. apply obj_inj in E1. subst ob.
        cbn [VidModel.cw VidModel.ch VidModel.cx VidModel.cy VidModel.cop k] in PL. splits. split; [|unmuted]. params; give; cbn [fst snd VidModel.cw VidModel.ch VidModel.cx VidModel.cy VidModel.cop VidModel.clayer VidModel.cen k]; one.
  - destruct W as (W1 & W2 & _).
    assert (G : snd (VidModel.configure w h (given f 0) m) = VidModel.mkVM (VidModel.maxCh m) w h (if 0 <? given f 0 then 1000000 / given f 0 else VidModel.frameTime m) (VidModel.syncT m) (VidModel.cfg m)).
    { unfold VidModel.configure. destruct (Z.leb_spec w 0), (Z.ltb_spec 1920 w), (Z.leb_spec h 0), (Z.ltb_spec 1080 h); try lia. reflexivity. }
    rewrite G. split; [eexists; apply ab_size|]. intros ob AB. inversion AB; subst. split; [|unmuted]. params; give; ints; cbn [report VidModel.ow VidModel.oh]; one.
  - split; [eexists; apply ab_size|]. intros ob AB. inversion AB; subst. split; [|unmuted]. destruct W as (W1 & W2 & W3).
    assert (N : absent c "width" /\ absent c "height") by tauto. destruct N as [N1 N2]. params; exfalso; match goal with H : number _ _ _ |- _ => destruct H as (s & M & _) end; eauto using absent_member.
Qed.

Lemma told_split v s : toldBack v (Split s) Splitter.
Proof.
  intros a c o l SM P AS W T. cbn [settled] in SM. cbn [plainState] in P. destruct P as (_ & PG). assert (PI : forall x, In x (VidModel.crops (base s)) -> int32 (fst x)).
  { rewrite Forall_forall in PG. intros x I0. pose proof (PG x I0) as Q. inversion Q. assumption. }
  inversion AS; subst; cbn [within] in W; try (destruct W; fail); cbn [table] in T; pick T; cbn [obey].
  - set (s1 := setCrop (junk v) id w h x y (given d 0) s).
    assert (KI : forall (x : Z * VidModel.crop) o, cropNode s1 x = Obj o -> member o "id" (ofInt (fst x))) by (intros x0 o0 E; apply obj_inj in E; subst o0; mem).
    destruct W as (MM & W1 & W2 & W3 & W4 & W5).
    assert (G : exists t, VidModel.crops (base s1) = mset id (VidModel.mkCrop w h x y t) (VidModel.crops (base s)) /\ deg s1 id = given d 0).
    { subst s1. unfold setCrop, VidModel.configCrop. unfold mmem in MM. destruct (mfind id (VidModel.crops (base s))) as [k|]; [|discriminate].
      destruct (Z.ltb_spec x 0), (Z.ltb_spec y 0), (Z.leb_spec w 0), (Z.leb_spec h 0), (Z.ltb_spec 360 (given d 0)), (Z.ltb_spec (given d 0) (-360)); try lia. cbn [orb fst snd base deg VidModel.crops]. rewrite Z.eqb_refl. eexists. split; reflexivity. }
    destruct G as (t & G & GD). clearbody s1. ints. split.
    + eexists. eapply ab_crop; [eassumption|mem| |].
      * rewrite G. apply in_map_iff. exists (id, VidModel.mkCrop w h x y t). split; [reflexivity|]. apply mfind_In. rewrite mfind_mset, Z.eqb_refl. reflexivity.
      * apply m_number; [mem|assumption].
    + intros ob AB. inversion AB as [| | | |s0 c0 o1 id0 l1 Hn Hm Hl Ho| | | | |]; subst.
      match goal with H : number c "id" id |- _ => pose proof (number_fun _ _ _ _ H Hn) as <- end. cbn [report] in Hm.
      match type of Hm with member ?r _ _ => assert (HM : member r "crops" (Arr (map (cropNode s1) (VidModel.crops (base s1))))) by mem end.
      destruct (entry (cropNode s1) _ _ "crops" l1 ob id HM Hm Hl Ho KI) as (g' & I1 & E1).
      * rewrite G. apply mset_keys; assumption.
      * rewrite G in I1. apply (In_mfind _ None _ _ (msorted_mset _ _ _ SM)) in I1. rewrite mfind_mset, Z.eqb_refl in I1. injection I1 as <-. apply obj_inj in E1. subst ob.
        split; [|unmuted]. cbn [fst snd VidModel.kw VidModel.kh VidModel.kx VidModel.ky] in *. rewrite GD in *. params; give; ints; cbn [given]; one.
  - split; [eexists; apply ab_ftime|]. intros ob AB. inversion AB; subst. split; [|unmuted]. params; give; ints. cbn [report ftime]. unfold setFrameTime. cbn [given] in *. destruct (Z.ltb_spec z 0); [lia|]. one.
Qed.

Lemma told_adec v s : toldBack v (ADec s) AudioDecoder.
Proof.
  intros a c o l _ _ AS W T. inversion AS; subst; cbn [within] in W; cbn [table] in T; pick T; cbn [obey]. split; [eexists; apply ab_decoder|]. intros ob AB. inversion AB; subst. split; [|unmuted].
  set (q := AdcModel.mkReq f ch r) in *. assert (G : AdcModel.out (fst (AdcModel.configEvent (alloc v) (init v) s q)) =
    AdcModel.mkPar (AdcModel.dflt f (AdcModel.pfmt (AdcModel.out s))) (AdcModel.dflt ch (AdcModel.pch (AdcModel.out s))) (AdcModel.dflt r (AdcModel.prate (AdcModel.out s)))).
  { unfold AdcModel.configEvent, AdcModel.inputConfig. cbv zeta. destruct (_ && _); [reflexivity|]. destruct (alloc v _ _); [|reflexivity]. destruct (AdcModel.conv _); try (destruct (init v _ _)); reflexivity. }
  cbn [q AdcModel.qFmt] in W. clearbody q. cbn [report]. rewrite G. cbn [AdcModel.pfmt AdcModel.pch AdcModel.prate].
  params; give; ints; cbn [AdcModel.dflt]; try one.
  match goal with H : maybe (named _ _) c _ _, H' : text c _ _ |- _ => destruct (maybe_named _ _ _ _ _ _ H H' W) as (e & -> & ->) end. cbn [AdcModel.dflt]. apply m_text; [mem|destruct e; vm_compute; intuition discriminate].
Qed.

Lemma coding_keeps s ok a : AenModel.ecodec (fst (AenModel.codingConfig s ok a)) = AenModel.ecodec s /\ AenModel.erate (fst (AenModel.codingConfig s ok a)) = AenModel.erate s /\ AenModel.ech (fst (AenModel.codingConfig s ok a)) = AenModel.ech s.
Proof.
  unfold AenModel.codingConfig. destruct (if ok then _ else _); [|repeat split]. destruct (AenModel.aCtx a); [|repeat split]. destruct (_ || _); [|repeat split]. destruct (AenModel.lopen _ _ _ _); [|repeat split].
  cbv zeta. destruct (if _ <=? 0 then None else _); repeat split.
Qed.
Lemma told_aenc v s : toldBack v (AEnc s) AudioEncoder.
Proof.
  intros a c o l _ _ AS W T. inversion AS; subst; cbn [within] in W; cbn [table] in T; pick T; cbn [obey]. split; [eexists; apply ab_aencoder|]. intros ob AB. inversion AB; subst. split; [|unmuted].
  destruct W as [W1 W2]. cbn [AenModel.qCodec] in W2. cbn [report]. unfold AenModel.configure. rewrite W1. cbv zeta. cbn [AenModel.qCodec AenModel.qECh AenModel.qERate AenModel.qBit].
  match goal with |- context [AenModel.codingConfig ?x ?y ?z] => destruct (coding_keeps x y z) as (E1 & E2 & E3); rewrite E1, E2, E3; clear E1 E2 E3 end. cbn [AenModel.ecodec AenModel.ech AenModel.erate].
  params; give; ints; cbn [AdcModel.dflt]; try one.
  match goal with H : maybe (named _ _) c _ _, H' : text c _ _ |- _ => destruct (maybe_named _ _ _ _ _ _ H H' W2) as (e & -> & ->) end. cbn [AdcModel.dflt]. apply m_text; [mem|destruct e; vm_compute; intuition discriminate].
Qed.

Lemma pickU_given o old : match o with Some z => int32 z | None => True end -> 0 <= given o old -> EncModel.pickU o old = given o old.
Proof. destruct o as [z|]; cbn [EncModel.pickU given]; intros I0 P; [|reflexivity]. unfold EncModel.asUnsigned. apply Z.mod_small. unfold int32 in I0. lia. Qed.
Lemma maybe_int c k o : maybe number c k o -> match o with Some z => int32 z | None => True end.
Proof. destruct o; cbn [maybe]; intros M; [apply (number_int _ _ _ M)|exact Logic.I]. Qed.
Lemma told_venc v e : toldBack v (VEnc e) VideoEncoder.
Proof.
  intros a c o l _ _ AS W T. inversion AS; subst; cbn [within] in W; try (destruct W; fail); cbn [table] in T; pick T; cbn [obey]. split; [eexists; apply ab_encoder|]. intros ob AB. inversion AB; subst. split; [|unmuted].
  cbv zeta in W. cbn [EncModel.rBitrate EncModel.rFps EncModel.rGop EncModel.rLookahead EncModel.rThreads EncModel.rPreset EncModel.rGopTime] in W. destruct W as (W1 & W2 & W3 & W4 & W5 & W6 & W7 & W8).
  assert (W6' : forall p, option_map string_of_list_ascii pr = Some p -> clean (lit p)) by (intros p E; apply W7, E).
  set (s := EncModel.set e) in *.
  assert (G : EncModel.set (fst (EncModel.configEvent (EncModel.mkRq br fps gop la bf th an (option_map string_of_list_ascii pr) gt) e)) =
    EncModel.mkSet (given br (EncModel.bitrate s)) (given fps (EncModel.fps s)) (given gop (EncModel.gop s)) (given la (EncModel.lookahead s)) (given th (EncModel.threads s)) (given bf (EncModel.bFrames s))
      (given an (EncModel.annexb s)) (given (option_map string_of_list_ascii pr) (EncModel.preset s)) (1000000 / given fps (EncModel.fps s)) (given gt (EncModel.gopTime s))).
  { unfold EncModel.configEvent. cbv zeta. cbn [EncModel.rBitrate EncModel.rFps EncModel.rGop EncModel.rLookahead EncModel.rThreads EncModel.rPreset EncModel.rGopTime EncModel.rBframes EncModel.rAnnexb]. fold s.
    rewrite (pickU_given br), (pickU_given fps), (pickU_given gop), (pickU_given la), (pickU_given th), (pickU_given gt) by (first [lia | eapply maybe_int; eassumption]).
    change (EncModel.pick (option_map string_of_list_ascii pr) (EncModel.preset s)) with (given (option_map string_of_list_ascii pr) (EncModel.preset s)).
    change (EncModel.pick bf (EncModel.bFrames s)) with (given bf (EncModel.bFrames s)). change (EncModel.pick an (EncModel.annexb s)) with (given an (EncModel.annexb s)).
    unfold EncModel.configure0.
    destruct (Z.leb_spec (given br (EncModel.bitrate s)) 0), (Z.leb_spec (given gop (EncModel.gop s)) 0), (Z.ltb_spec (given la (EncModel.lookahead s)) 0), (Z.leb_spec (given th (EncModel.threads s)) 0), (Z.leb_spec (given fps (EncModel.fps s)) 0); try lia.
    destruct (String.eqb_spec (given (option_map string_of_list_ascii pr) (EncModel.preset s)) ""); [contradiction|]. cbn [orb fst EncModel.set]. f_equal.
    unfold EncModel.MIN_GOP_TIME. destruct (Z.gtb_spec (given gt (EncModel.gopTime s)) 0); [|lia]. destruct (Z.ltb_spec (given gt (EncModel.gopTime s)) 1000000); [lia|reflexivity]. }
  set (e1 := fst (EncModel.configEvent _ e)) in *. clearbody e1. cbn [report]. cbv zeta. rewrite G. cbn [EncModel.bitrate EncModel.fps EncModel.gop EncModel.gopTime EncModel.lookahead EncModel.threads EncModel.annexb EncModel.bFrames EncModel.preset]. clear G.
  params; give; ints; cbn [given option_map]; try one.
  pose proof (W6' _ eq_refl) as C. rewrite lit_text in C. apply m_text; [|exact C]. replace (ofText s0) with (texts (string_of_list_ascii s0)) by (unfold texts; rewrite lit_text; reflexivity). mem.
Qed.

Lemma told_dash v d : toldBack v (Dash d) (Dasher d).
Proof.
  intros a c o l _ _ AS W T. inversion AS; subst; cbn [within] in W; try (destruct W; fail); cbn [table] in T; pick T; cbn [obey]. split; [eexists; apply ab_dasher|]. intros ob AB. inversion AB; subst. split; [|unmuted].
  destruct W as (W1 & (p & W2) & W3 & W4 & W5 & W6 & W7 & W8 & W9).
  set (f1 := given fo _) in *. set (b1 := given ba _) in *. set (du1 := given du _) in *. set (ms1 := given ms _) in *. set (mb1 := given mb _) in *.
  assert (G : snd (MpdModel.configure f1 b1 du1 ms1 mb1 (writable v) d) = MpdModel.mkD (Some (MpdModel.configureM mb1 ms1 du1 (match MpdModel.mgr d with None => MpdModel.newManager | Some m => m end))) f1 b1 du1
    (MpdModel.vslots d) (MpdModel.aslots d) (MpdModel.hasVideo d) (MpdModel.files d)).
  { unfold MpdModel.configure. rewrite W1. cbn [negb]. destruct b1 as [|ch b1]; [congruence|]. destruct (Z.eqb_spec du1 0); [lia|]. cbn [snd]. f_equal. rewrite W2. apply slash_end. }
  rewrite G. clear G.
  assert (GM : MpdModel.maxSeg (MpdModel.configureM mb1 ms1 du1 (match MpdModel.mgr d with None => MpdModel.newManager | Some m => m end)) = ms1 /\
    MpdModel.minBufferTime (MpdModel.configureM mb1 ms1 du1 (match MpdModel.mgr d with None => MpdModel.newManager | Some m => m end)) = mb1).
  { unfold MpdModel.configureM, MpdModel.u32, MpdModel.MIN_SEGMENT. cbv zeta. cbn [MpdModel.maxSeg MpdModel.minBufferTime]. destruct (Z.leb_spec 2 ms1); [|lia]. rewrite (Z.mod_small (ms1 * du1)), (Z.mod_small (2 * du1)) by (change 4294967296 with (2 ^ 32); nia).
    split; [reflexivity|]. destruct (Z.leb_spec (ms1 * du1) mb1); [lia|]. destruct (Z.leb_spec (2 * du1) mb1); [reflexivity|lia]. }
  destruct GM as [GM1 GM2]. cbn [report MpdModel.mgr MpdModel.basePath MpdModel.baseName MpdModel.segDur]. rewrite GM1, GM2. clear GM1 GM2.
  subst f1 b1 du1 ms1 mb1. params; give; ints; cbn [given app] in *; try one.
Qed.
Lemma all_told v st f : view st = Some f -> toldBack v st f.
Proof.
  destruct st; cbn [view]; intros E; try discriminate E; injection E as <-; try (intros a c o0 l0 _ _ _ [] _).
  all: first [apply told_amix | apply told_vmix | apply told_split | apply told_adec | apply told_aenc | apply told_venc | apply told_dash].
Qed.
