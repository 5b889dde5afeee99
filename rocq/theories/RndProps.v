(** C66: a round of the transmitter. *)
From Verif Require Import Base ZMap TxModel TxSpec TxProofs RndModel RndSpec RndProofs.
Local Open Scope list_scope.
Local Open Scope Z_scope.

(** *** Frames are taken and given back.
    A round that ends has given back every frame: no source keeps one. For every input the frames given back are
    those taken; an input that has a source takes its new frame, the others take none. *)
Theorem C66_released os e0 t fs steps ok e t' : hrun os newTx = Some (e0, t) -> doProcessFrame fs steps t = Ended ok e t' ->
  released t' /\
  (forall r, collectedIn (at_ r e) = takenIn (at_ r e)) /\
  (forall r f, NoDup (map fst fs) -> In (r, f) fs -> mfind r (tsrc t) <> None -> takenIn (at_ r e) = [f]) /\
  (forall r, (forall f, ~ In (r, f) fs) \/ mfind r (tsrc t) = None -> takenIn (at_ r e) = []).
Proof.
  intros H D. pose proof (inv_run _ _ _ _ inv_new H) as V. pose proof (round_frames _ _ _ _ _ _ V D) as R. repeat split.
  - destruct V as (W & P & I). destruct (round_ended _ _ _ _ _ _ W P I D) as (_ & _ & _ & I' & _). intros r s F. exact (proj1 (I' r s F)).
  - intros r. exact (proj1 (R r)).
  - intros r f N I F. rewrite (proj2 (R r)), (firstOf_nodup r f fs N I). destruct (mfind r (tsrc t)); congruence.
  - intros r [N|N]; rewrite (proj2 (R r)); [rewrite (firstOf_none r fs N); destruct (mfind r (tsrc t)); reflexivity|rewrite N; reflexivity].
Qed.
(** So it is between the rounds of every history, and over a history as a whole nothing is lost or made up. *)
Theorem C66_history os e t : hrun os newTx = Some (e, t) -> released t /\ forall r, collectedIn (at_ r e) = takenIn (at_ r e).
Proof.
  intros H. split; [|intros r; exact (run_frames _ _ _ _ r inv_new H)].
  destruct (inv_run _ _ _ _ inv_new H) as (_ & _ & I). intros r s F. exact (proj1 (I r s F)).
Qed.

(** *** Frames reach the network.
    At an input the network plays and does not stop during the round, a frame is sent before it is given back. *)
Theorem C66_sent os e0 t fs steps ok e t' r : hrun os newTx = Some (e0, t) -> doProcessFrame fs steps t = Ended ok e t' ->
  playing r t -> ~ does (Stop r) steps ->
  (forall e1 f e2, at_ r e = e1 ++ Collected f :: e2 -> In (Delivered f) e1) /\ subseq (takenIn (at_ r e)) (deliveredIn (at_ r e)).
Proof.
  intros H D (s & F & S) N. pose proof (inv_run _ _ _ _ inv_new H) as V. destruct (round_delivered _ _ _ _ _ _ r s V D F) as [_ R]. destruct (R S N) as [R1 R2].
  split; [exact R2|]. rewrite <- (proj1 (round_frames _ _ _ _ _ _ V D r)). exact R1.
Qed.
(** Frames that are sent as they are (not cut into units) are sent exactly once, and over any history at most once and in order. *)
Theorem C66_once os e0 t fs steps ok e t' r : hrun os newTx = Some (e0, t) -> doProcessFrame fs steps t = Ended ok e t' ->
  plain r os -> playing r t -> ~ does (Stop r) steps -> deliveredIn (at_ r e) = takenIn (at_ r e).
Proof.
  intros H D PL P N. destruct (C66_sent _ _ _ _ _ _ _ _ r H D P N) as [_ S]. apply subseq_both; [|exact S].
  assert (X : hrun (os ++ [Round fs steps]) newTx = Some (e0 ++ e, t')).
  { apply hrun_app. exists e0, t, e. split; [exact H|]. split; [|reflexivity]. cbn [hrun hstep]. rewrite D. rewrite app_nil_r. reflexivity. }
  destruct P as (s & F & _). destruct (round_delivered _ _ _ _ _ _ r s (inv_run _ _ _ _ inv_new H) D F) as [R _]. apply R.
  assert (Y : forall l t0 a t1, inv t0 -> plain r l -> (forall s0, mfind r (tsrc t0) = Some s0 -> skind s0 = Plain) -> hrun l t0 = Some (a, t1) -> forall s0, mfind r (tsrc t1) = Some s0 -> skind s0 = Plain).
  { clear. induction l as [|o l IH]; intros t0 a t1 V PL K H s0 F; [inversion H; subst; exact (K s0 F)|].
    destruct (hrun_cons _ _ _ _ _ H) as (ok & x & y & t2 & E1 & E2 & _). refine (IH t2 y t1 (inv_step _ _ _ _ _ V E1) _ _ E2 s0 F); [intros k I; apply PL; right; exact I|].
    clear F s0. destruct o as [z k|z|fs steps]; cbn [hstep] in E1.
    - inversion E1; subst. intros s F. cbn in F. destruct (Z.eq_dec r z) as [-> | N].
      + rewrite mfind_mset_eq in F. inversion F; subst. cbn. apply PL. left. reflexivity.
      + rewrite mfind_mset_neq in F by assumption. exact (K s F).
    - inversion E1; subst. intros s F. unfold closeSource in F. destruct (mfind z (tsrc t0)); [|exact (K s F)]. cbn in F. apply mfind_mdel_some in F; [|apply V]. exact (K s (proj1 F)).
    - destruct V as (W & P & D). destruct (round_ended _ _ _ _ _ _ W P D E1) as ((SH & _) & _). intros s F.
      destruct (shape_find _ _ _ _ SH F) as (s' & F' & _ & K' & _). rewrite <- K'. exact (K s' F'). }
  refine (Y os newTx e0 t inv_new PL _ H s F). intros s0 X0. discriminate.
Qed.
Theorem C66_at_most_once os e t r : hrun os newTx = Some (e, t) -> plain r os -> subseq (deliveredIn (at_ r e)) (takenIn (at_ r e)).
Proof. intros H PL. apply (run_once os newTx e t r inv_new); [intros s F; discriminate|exact PL|exact H]. Qed.

(** *** Rounds end. (Partial: on the conditions below.)
    A round ends if each of its frames is for an input without a source, or one the network does not play, or one
    whose sink asks or stops during the round, or one whose sink waits and that has a trigger, when there are as
    many steps as triggers can be pending. *)
Theorem C66_ends_partial os e0 t fs steps : hrun os newTx = Some (e0, t) -> steps <> [] ->
  (forall r f, In (r, f) fs -> ~ playing r t \/ does (Ask r) steps \/ does (Stop r) steps \/
     waits r t /\ triggered r t /\ (length (tpend t) + length fs <= length steps)%nat) ->
  forall e t', doProcessFrame fs steps t <> Waiting e t'.
Proof.
  intros H NE C e t' D. pose proof (inv_run _ _ _ _ inv_new H) as V.
  destruct (round_waits _ _ _ _ _ V NE D) as (r & f & s & I & F & S & NA & NS & L).
  destruct (C r f I) as [X|[X|[X|((s1 & F1 & A) & (s2 & F2 & T) & X)]]]; [apply X; exists s; auto|auto|auto|].
  rewrite F in F1, F2. inversion F1; inversion F2; subst. specialize (L A T). lia.
Qed.
(** The first 32 inputs ever connected get a trigger. *)
Theorem C66_triggers_partial os e t r s : hrun os newTx = Some (e, t) -> connects os <= 32 -> mfind r (tsrc t) = Some s -> triggered r t.
Proof.
  intros H C F. exists s. split; [exact F|]. refine (trig_run os newTx e t inv_new _ _ _ H r s F); [cbn; lia|cbn; lia|intros; discriminate].
Qed.
(** Refuted: that a round always ends. An input the network plays, which neither waits with a trigger nor asks,
    nor stops, holds up the round, and with it all inputs, for ever. *)
Theorem C66_ends_refuted os e0 t fs steps r f : hrun os newTx = Some (e0, t) -> In (r, f) fs -> playing r t ->
  ~ (waits r t /\ triggered r t) -> silent r steps -> forall ok e t', doProcessFrame fs steps t <> Ended ok e t'.
Proof.
  intros H I (s & F & S) N SI ok e t'. refine (round_blocked fs steps t ok e t' r s f (inv_run _ _ _ _ inv_new H) I F S _ SI).
  destruct (awaiting (sstate s)) eqn:A; [|left; reflexivity]. destruct (strig s) eqn:T; [|right; reflexivity]. exfalso. apply N. split; exists s; auto.
Qed.
(** Refuted: that reconnecting inputs is harmless. After 32 connections, even if of one input that was disconnected
    each time, the next input gets no trigger: its sink, having asked once, waits in vain, and the round that
    brings the frame it waits for does not end. *)
Theorem C66_triggers_refuted os e0 t r k f steps : hrun os newTx = Some (e0, t) -> 32 <= connects os ->
  forall e1 t1, hrun [Connect r k; Round [] [mkStep [Ask r] 0 []]] t = Some (e1, t1) ->
  waits r t1 /\ (silent r steps -> forall ok e t', doProcessFrame [(r, f)] steps t1 <> Ended ok e t').
Proof.
  intros H C e1 t1 H1. pose proof (inv_run _ _ _ _ inv_new H) as V. pose proof (tused_run os newTx e0 t inv_new ltac:(cbn; lia) H) as U. change (tused newTx) with 0 in U.
  destruct (hrun_cons _ _ _ _ _ H1) as (ok & a & b & t2 & E1 & E2 & _). cbn [hstep] in E1. inversion E1; subst a t2 ok. clear E1.
  destruct (hrun_cons _ _ _ _ _ E2) as (ok & a & b' & t3 & E3 & E4 & _). cbn [hrun] in E4. inversion E4; subst b' t3. clear E4 E2. cbn [hstep] in E3.
  pose proof (inv_connect r k t V) as V1. set (t0 := addSource r k t) in *.
  set (s := mkSrc (tnext t) k false newQ).
  assert (F0 : mfind r (tsrc t0) = Some s).
  { unfold t0, addSource. cbn [tsrc]. rewrite mfind_mset_eq. unfold s. repeat f_equal. unfold MAX_TRIGGERS. apply Z.ltb_ge. lia. }
  assert (F1 : mfind r (tsrc t1) = Some (withState s (mkQ None false false true))).
  { unfold doProcessFrame in E3. cbn [hand] in E3. destruct (0 =? 0) eqn:Z0; [|discriminate]. destruct (singleStep (mkStep [Ask r] 0 []) t0) as [[b1 t2]|] eqn:E5; [|discriminate].
    inversion E3; subst. destruct (singleStep_props _ _ _ _ (proj1 V1) E5) as (_ & _ & _ & _ & VV). destruct (VV r s F0) as (mid & M & [V2 _]).
    cbn [before after opsOf flat_map opOf] in V2. rewrite Z.eqb_refl in V2. cbn [app] in V2. destruct M as [[-> _]|[-> _]]; exact V2. }
  split; [exists (withState s (mkQ None false false true)); auto|]. intros SI.
  refine (C66_ends_refuted (os ++ [Connect r k; Round [] [mkStep [Ask r] 0 []]]) (e0 ++ e1) t1 [(r, f)] steps r f _ (or_introl eq_refl) _ _ SI).
  - apply hrun_app. exists e0, t, e1. auto.
  - exists (withState s (mkQ None false false true)). auto.
  - intros (_ & (s' & F' & T)). rewrite F1 in F'. inversion F'; subst s'. discriminate.
Qed.

(** *** No destroyed source is used. (Partial: if no trigger is pending when its input is disconnected; that is so if
    each round brings at most one frame.) *)
Theorem C66_safe_partial os e0 t fs steps : hrun os newTx = Some (e0, t) -> settled os -> doProcessFrame fs steps t <> Dead.
Proof.
  intros H S. apply (round_alive fs steps t (inv_run _ _ _ _ inv_new H)). refine (und_run os newTx e0 t inv_new und_new _ H). exact S.
Qed.
Lemma oneByOne_settled os : oneByOne os -> settled os.
Proof.
  intros O a r b e t s -> H F. rewrite (one_pend a newTx e t inv_new eq_refl); [intros []| |exact H].
  intros fs steps I. apply (O fs steps). apply in_or_app. left. exact I.
Qed.
Theorem C66_single_safe_partial os e0 t fs steps : hrun os newTx = Some (e0, t) -> oneByOne os -> doProcessFrame fs steps t <> Dead.
Proof. intros H O. exact (C66_safe_partial os e0 t fs steps H (oneByOne_settled os O)). Qed.
(** Refuted: that disconnecting an input is safe. Two inputs nobody plays get a frame in one round: the first step
    handles one trigger, both frames are given back, and the round ends with the other trigger pending. If its
    input is disconnected, the next round uses the destroyed source. *)
Definition two : list op :=
  [Connect 1 Plain; Connect 2 Plain; Round [(1, 10); (2, 20)] [mkStep [] 0 []]; Disconnect 2].
Theorem C66_safe_refuted : exists os e0 t, hrun os newTx = Some (e0, t) /\ forall st steps, doProcessFrame [] (st :: steps) t = Dead.
Proof.
  exists two. eexists. eexists. split; [vm_compute; reflexivity|]. intros st steps.
  set (t := mkTx _ _ _ _ _). unfold doProcessFrame. cbn [hand]. change (0 =? 0) with true. cbn iota.
  destruct (singleStep st t) as [[b t2]|] eqn:E; [|reflexivity]. exfalso. unfold singleStep in E. destruct (sinksDo (before st) t) as [a t1] eqn:E1.
  destruct (sinksDo_props (before st) t a t1 ltac:(cbn; auto) E1) as (A & P1 & _). rewrite P1 in E.
  destruct (picked (pick st) (tpend t)) as [[o rest]|] eqn:EP; [|apply picked_none in EP; discriminate].
  destruct (picked_spec _ _ _ _ EP) as (I & _). cbn in I. destruct I as [<- | []].
  unfold handle in E. cbn [tfreed] in E. destruct A as (_ & AF & _). rewrite AF in E. discriminate.
Qed.

(** *** Cases. *)
(** Two inputs play; one sink asks during the round, the other waits for its trigger. *)
Definition playBoth : list op :=
  [Connect 1 Plain; Connect 2 Nal; Round [] [mkStep [Ask 1] 0 []]; Round [] [mkStep [Ask 2] 0 []]].
Example C66_round : match hrun (playBoth ++ [Round [(1, 10); (2, 20)] [mkStep [] 0 []; mkStep [] 5 [Ask 1]]]) newTx with
  | Some (e, t) => e = [(1, Taken 10); (2, Taken 20); (1, Delivered 10); (1, Collected 10); (2, Delivered 20); (2, Collected 20)] /\ tpend t = []
  | None => False end.
Proof. vm_compute. split; reflexivity. Qed.
Example C66_stopped : match hrun (playBoth ++ [Round [(1, 10); (3, 30)] [mkStep [Stop 1] 0 []]]) newTx with
  | Some (e, _) => e = [(1, Taken 10); (1, Collected 10)] | None => False end.
Proof. vm_compute. reflexivity. Qed.
Example C66_playing : match hrun playBoth newTx with Some (_, t) => playing 1 t /\ waits 2 t /\ triggered 2 t | None => False end.
Proof. vm_compute. split; [|split]; eexists; split; reflexivity. Qed.
(** A playing input whose sink is busy. *)
Example C66_busy : match hrun (playBoth ++ [Round [(1, 10)] [mkStep [] 0 []]]) newTx with Some (_, t) => playing 1 t /\ ~ waits 1 t | None => False end.
Proof. vm_compute. split; [eexists; split; reflexivity|]. intros (s & F & A). inversion F; subst. discriminate. Qed.
Example C66_worn_out : match hrun (flat_map (fun _ => [Connect 1 Plain; Disconnect 1]) (repeat tt 32)) newTx with Some (_, t) => tused t = 32 /\ tsrc t = [] | None => False end.
Proof. vm_compute. split; reflexivity. Qed.

Print Assumptions C66_released.
Print Assumptions C66_history.
Print Assumptions C66_sent.
Print Assumptions C66_once.
Print Assumptions C66_at_most_once.
Print Assumptions C66_ends_partial.
Print Assumptions C66_triggers_partial.
Print Assumptions C66_ends_refuted.
Print Assumptions C66_triggers_refuted.
Print Assumptions C66_safe_partial.
Print Assumptions C66_single_safe_partial.
Print Assumptions C66_safe_refuted.
