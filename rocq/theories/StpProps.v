(** Property C103: stopping the pool ends, and nothing is run afterwards. *)
From Verif Require Import Base StpModel StpSpec StpProofs.
Local Open Scope nat_scope.

(** Once stop() was called, whatever the threads do and in whatever order: only so many steps can follow, and when no thread can
    do anything any more all workers have ended and stop() has returned. *)
Theorem C103_stop_ends n c es s : steps (newPool n c) es s -> asked es ->
  (exists k, forall es' s', steps s es' s' -> length es' <= k) /\
  (forall es' s', steps s es' s' -> still s' -> allEnded s' /\ returned (es' ++ es)).
Proof.
  intros T A. pose proof (inv_steps _ _ _ T (inv_new n c)) as I.
  assert (R: running s = false) by (apply (iR s I); apply (asked_iff n c es s T); exact A). split.
  - exists (weight s). intros es' s' T'. destruct (weight_steps _ _ _ T' I R) as (_ & _ & L). lia.
  - intros es' s' T' Q. destruct (weight_steps _ _ _ T' I R) as (I' & R' & _). destruct (progress s' I' R' Q) as [E X].
    split; [exact E|]. apply (asked_iff n c _ s' (steps_app _ _ _ _ _ T T')). exact X.
Qed.
Print Assumptions C103_stop_ends.

(** When stop() has returned, all workers have ended, every round that was begun is finished, and none is ever begun again. *)
Theorem C103_nothing_afterwards n c es s : steps (newPool n c) es s -> returned es ->
  allEnded s /\ (forall i, begun i es = finished i es) /\ (forall es' s', steps s es' s' -> begins es' = 0 /\ allEnded s').
Proof.
  intros T A. pose proof (inv_steps _ _ _ T (inv_new n c)) as I.
  assert (X: stopper s = Stopped) by (apply (asked_iff n c es s T); exact A).
  assert (R: running s = false) by (apply (iR s I); congruence).
  assert (All: forall x, inv x -> stopper x = Stopped -> forall j y, nth_error (wk x) j = Some y -> y = Ended).
  { intros x Ix Sx j y N. assert (Lt: j < length (wk x)) by (apply nth_error_Some; congruence). rewrite (iS x Ix Sx j Lt) in N. congruence. }
  assert (E: forall x, inv x -> stopper x = Stopped -> allEnded x).
  { intros x Ix Sx. apply Forall_forall. intros y H. apply In_nth_error in H. destruct H as [j N]. exact (All x Ix Sx j y N). }
  split; [exact (E s I X)|]. split.
  - intros i. rewrite (seen n c es s T i). destruct (nth_error (wk s) i) as [x|] eqn:N; [rewrite (All s I X i x N)|]; lia.
  - intros es' s' T'. destruct (weight_steps _ _ _ T' I R) as (I' & _ & _). split.
    + destruct (bg_steps _ _ _ T' R) as [_ B]. unfold bg in B. rewrite (sum_zero isBegins (wk s)) in B; [lia|].
      intros j x N. rewrite (All s I X j x N). reflexivity.
    + apply E; [exact I'|]. apply (asked_iff n c _ s' (steps_app _ _ _ _ _ T T')). apply in_or_app. right. exact A.
Qed.
Print Assumptions C103_nothing_afterwards.

(** From the call of stop() on, at most one more round is begun, by all workers together. *)
Theorem C103_at_most_one_more n c after before s : steps (newPool n c) (after ++ Stop :: before) s -> begins after <= 1.
Proof.
  intros T. destruct (steps_split _ (Stop :: before) after s T) as (s1 & T1 & T2).
  pose proof (inv_steps _ _ _ T1 (inv_new n c)) as I1.
  assert (R: running s1 = false) by (apply (iR s1 I1); apply (asked_iff n c _ s1 T1); left; reflexivity).
  destruct (bg_steps _ _ _ T2 R) as [_ B]. pose proof (bg_one s1 I1). lia.
Qed.
Print Assumptions C103_at_most_one_more.

(** One can be: a worker that has found the pool running is about to begin. *)
Theorem C103_one_more_refuted : exists before s, steps (newPool 1 0) (Begin 0 :: Stop :: before) s.
Proof.
  exists [Tau; Tau; Tau; Tau]. eexists.
  eapply ss_more; [eapply ss_more; [eapply ss_more; [eapply ss_more; [eapply ss_more; [eapply ss_more; [apply ss_none|]|]|]|]|]|].
  - apply (st_top (newPool 1 0) 0); reflexivity.
  - apply (st_look (mkP [Loop] true (Some (W 0)) Idle 0) 0); reflexivity.
  - apply (st_pop (mkP [Looks] true (Some (W 0)) Idle 0) 0); reflexivity.
  - apply (st_go (mkP [Behind] true (Some (W 0)) Idle 0) 0); reflexivity.
  - apply (st_stop (mkP [Begins] true (Some (W 0)) Idle 0)); reflexivity.
  - apply (st_begin (mkP [Begins] false (Some (W 0)) Notifying 0) 0); reflexivity.
Qed.
Print Assumptions C103_one_more_refuted.

(** The notification of stop(), which is given without the lock, can be missed: the worker has found the pool running, stop() sets run
    and notifies, and only then does the worker wait. Nobody is left to wake it, and stop() lasts until its wait is over by itself, which
    for a job that is not ready is the job's time. *)
Theorem C103_notification_missed_refuted : exists es s, steps (newPool 1 0) es s /\ asked es /\ stopper s = Joining 0 /\
  wk s = [Waiting] /\ forall e s', step s e s' -> s' = move s 0 Woken (lock s).
Proof.
  exists [Tau; Tau; Stop; Tau; Tau]. eexists. split; [|split; [right; right; left; reflexivity|]].
  - eapply ss_more; [eapply ss_more; [eapply ss_more; [eapply ss_more; [eapply ss_more; [apply ss_none|]|]|]|]|].
    + apply (st_top (newPool 1 0) 0); reflexivity.
    + apply (st_look (mkP [Loop] true (Some (W 0)) Idle 0) 0); reflexivity.
    + apply (st_stop (mkP [Looks] true (Some (W 0)) Idle 0)); reflexivity.
    + apply (st_notify (mkP [Looks] false (Some (W 0)) Notifying 0)); reflexivity.
    + apply (st_wait (mkP [Looks] false (Some (W 0)) (Joining 0) 0) 0); reflexivity.
  - cbn [wk stopper map wake move upd]. split; [reflexivity|]. split; [reflexivity|].
    assert (X: forall i x, nth_error [Waiting] i = Some x -> i = 0 /\ x = Waiting).
    { intros [|[|i]] x N; try discriminate. injection N as <-. split; reflexivity. }
    intros e s' P. inversion P; subst; cbn in *; try discriminate;
      try (match goal with N : nth_error [Waiting] _ = Some _ |- _ => apply X in N; destruct N as [-> N]; try discriminate end);
      try reflexivity.
Qed.
Print Assumptions C103_notification_missed_refuted.

(** The worker that waits when the notification is given is woken by it. *)
Theorem C103_notified n c es s e s' i : steps (newPool n c) es s -> stopper s = Notifying -> step s e s' -> stopper s' = Joining 0 ->
  nth_error (wk s') i <> Some Waiting.
Proof.
  intros T N P J. destruct P; cbn [move stopper] in J; try congruence.
  cbn [wk]. rewrite nth_error_map. destruct (nth_error (wk s) i) as [x|]; [|discriminate]. destruct x; cbn; congruence.
Qed.
Print Assumptions C103_notified.

(** Two workers, one in a job and one waiting when stop() is called, and a call of addTask before: stop() returns. *)
Example C103_not_vacuous : exists es s, steps (newPool 2 1) es s /\ asked es /\ returned es /\ begun 0 es = 1 /\ finished 0 es = 1.
Proof.
  exists [Return; Tau; Tau; Tau; Tau; Tau; Tau; Tau; Tau; Tau; Tau; Finish 0; Tau; Stop; Tau; Tau; Tau; Tau; Tau; Begin 0; Tau; Tau; Tau; Tau]. eexists. split; [|repeat split; try reflexivity; unfold asked, returned; cbn [In]; tauto].
  eapply ss_more; [eapply ss_more; [eapply ss_more; [eapply ss_more; [eapply ss_more; [eapply ss_more; [eapply ss_more; [eapply ss_more; [eapply ss_more; [eapply ss_more; [eapply ss_more; [eapply ss_more; [eapply ss_more; [eapply ss_more; [eapply ss_more; [eapply ss_more; [eapply ss_more; [eapply ss_more; [eapply ss_more; [eapply ss_more; [eapply ss_more; [eapply ss_more; [eapply ss_more; [eapply ss_more; [apply ss_none|]|]|]|]|]|]|]|]|]|]|]|]|]|]|]|]|]|]|]|]|]|]|]|].
  - apply (st_top (mkP [Top; Top] true None Idle 1) 0); reflexivity.
  - apply (st_look (mkP [Loop; Top] true (Some (W 0)) Idle 1) 0); reflexivity.
  - apply (st_pop (mkP [Looks; Top] true (Some (W 0)) Idle 1) 0); reflexivity.
  - apply (st_go (mkP [Behind; Top] true (Some (W 0)) Idle 1) 0); reflexivity.
  - apply (st_begin (mkP [Begins; Top] true (Some (W 0)) Idle 1) 0); reflexivity.
  - apply (st_call (mkP [Working; Top] true None Idle 1) 0); reflexivity.
  - apply (st_called (mkP [Working; Top] true (Some Client) Idle 0)); reflexivity.
  - apply (st_top (mkP [Working; Top] true None Idle 0) 1); reflexivity.
  - apply (st_look (mkP [Working; Loop] true (Some (W 1)) Idle 0) 1); reflexivity.
  - apply (st_wait (mkP [Working; Looks] true (Some (W 1)) Idle 0) 1); reflexivity.
  - apply (st_stop (mkP [Working; Waiting] true None Idle 0)); reflexivity.
  - apply (st_notify (mkP [Working; Waiting] false None Notifying 0)); reflexivity.
  - apply (st_finish (mkP [Working; Woken] false None (Joining 0) 0) 0); reflexivity.
  - apply (st_again (mkP [Want; Woken] false None (Joining 0) 0) 1); reflexivity.
  - apply (st_out (mkP [Want; Loop] false (Some (W 1)) (Joining 0) 0) 1); reflexivity.
  - apply (st_end (mkP [Want; Behind] false (Some (W 1)) (Joining 0) 0) 1); reflexivity.
  - apply (st_lock (mkP [Want; Ended] false None (Joining 0) 0) 0); reflexivity.
  - apply (st_put (mkP [Putting; Ended] false (Some (W 0)) (Joining 0) 0) 0); reflexivity.
  - apply (st_top (mkP [Top; Ended] false None (Joining 0) 0) 0); reflexivity.
  - apply (st_out (mkP [Loop; Ended] false (Some (W 0)) (Joining 0) 0) 0); reflexivity.
  - apply (st_end (mkP [Behind; Ended] false (Some (W 0)) (Joining 0) 0) 0); reflexivity.
  - apply (st_join (mkP [Ended; Ended] false None (Joining 0) 0) 0); reflexivity.
  - apply (st_join (mkP [Ended; Ended] false None (Joining 1) 0) 1); reflexivity.
  - apply (st_return (mkP [Ended; Ended] false None (Joining 2) 0)); reflexivity.
Qed.
