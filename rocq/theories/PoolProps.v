(** Property theorems C10, C11, C12: the worker pool. *)
From Verif Require Import Base ZMap PoolModel PoolSpec PoolProofs.

(** Replays a list of events (for the examples). *)
Fixpoint replay (idof : nat -> Z) (p : pool) (es : list pevent) : option (pool * list (pevent * option nat)) :=
  match es with
  | [] => Some (p, [])
  | e :: t => match pstep idof p e with
              | Next p' s => match replay idof p' t with
                             | Some (q, tr) => Some (q, (e, s) :: tr)
                             | None => None end
              | _ => None end
  end.

Lemma replay_run_gen idof p0 es : forall p tr0 q tr,
  prun idof p0 p tr0 -> replay idof p es = Some (q, tr) -> prun idof p0 q (tr0 ++ tr).
Proof.
  induction es as [|e t IH]; intros p tr0 q tr HR H; cbn in H.
  - inversion H; subst. rewrite app_nil_r. exact HR.
  - destruct (pstep idof p e) as [p' s| |] eqn:E; try discriminate.
    destruct (replay idof p' t) as [[q' tr']|] eqn:E2; [|discriminate]. inversion H; subst.
    change ((e, s) :: tr') with ([(e, s)] ++ tr'). rewrite app_assoc.
    apply (IH p' (tr0 ++ [(e, s)]) q tr'); [econstructor; eassumption|exact E2].
Qed.
Lemma replay_run idof p0 es q tr : replay idof p0 es = Some (q, tr) -> prun idof p0 q tr.
Proof. intros H. apply (replay_run_gen idof p0 es p0 [] q tr); [constructor|exact H]. Qed.

(** C10. After any history of any number of workers, two workers that execute the
    same filter are the same worker. *)
Theorem filter_runs_on_one_worker :
  forall (idof : nat -> Z) (n : nat) (p : pool) (tr : list (pevent * option nat)),
  prun idof (newPool n) p tr ->
  forall w1 w2 o, busy w1 tr = Some o -> busy w2 tr = Some o -> w1 = w2.
Proof. exact exclusive. Qed.
Print Assumptions filter_runs_on_one_worker.

Definition always : nat -> bool := fun _ => true.

(** Two workers execute two filters at once; the second one is woken again. *)
Example pool_ex : exists p tr,
  prun Z.of_nat (newPool 2) p tr /\ busy 0 tr = Some 0 /\ busy 1 tr = Some 1 /\ queue p = [2].
Proof.
  destruct (replay Z.of_nat (newPool 2) [Add 0; Add 1; Look 0 always; Look 1 always; Add 2]) as [[p tr]|] eqn:E;
    [|vm_compute in E; discriminate].
  exists p, tr. split; [apply (replay_run _ _ _ _ _ E)|]. vm_compute in E. inversion E; subst. vm_compute. auto.
Qed.

(** C11, restricted to filters that are not executing: once scheduled, such a filter
    stays scheduled until a worker starts it. *)
Theorem wakeup_of_idle_filter_kept_partial :
  forall (idof : nat -> Z) (n : nat) (p : pool) tr e p' s o,
  prun idof (newPool n) p tr -> pstep idof p e = Next p' s ->
  In o (queue p) -> (forall w, busy w tr <> Some o) ->
  In o (queue p') \/ s = Some o.
Proof.
  intros idof n p tr e p' s o HR H Hq Hb. apply (kept_unless_running idof p e p' s o H Hq).
  intros Hf. destruct (inv_run idof n p tr HR) as [Hc _].
  apply (count_occ_In Nat.eq_dec) in Hf. fold (cnt o (flag p)) in Hf. rewrite Hc in Hf.
  assert (HW : exists w, nth_error (workers p) w = Some (Running o)).
  { clear -Hf. induction (workers p) as [|h t IH]; cbn in Hf; [lia|].
    destruct h as [|x|x en]; cbn in Hf.
    - destruct (IH Hf) as (w & Hw). exists (S w). exact Hw.
    - destruct (Nat.eqb_spec x o); [subst; exists 0; reflexivity|]. destruct (IH Hf) as (w & Hw). exists (S w). exact Hw.
    - destruct (IH Hf) as (w & Hw). exists (S w). exact Hw. }
  destruct HW as (w & Hw). apply (Hb w). apply (busy_state idof n p tr HR). exact Hw.
Qed.
Print Assumptions wakeup_of_idle_filter_kept_partial.

(** C11 for a pool with one worker: whatever is scheduled stays so until it is started. *)
Theorem wakeup_kept_by_single_worker :
  forall (idof : nat -> Z) (p : pool) tr e p' s o,
  prun idof (newPool 1) p tr -> pstep idof p e = Next p' s ->
  In o (queue p) -> In o (queue p') \/ s = Some o.
Proof. exact kept_one_worker. Qed.
Print Assumptions wakeup_kept_by_single_worker.

(** A wake-up for a registered identifier, or pending work, does schedule a filter with
    that identifier. *)
Theorem wakeup_is_scheduled :
  forall (idof : nat -> Z) (p : pool) w pend p' s o en i y,
  nth_error (workers p) w = Some (Settling o en) ->
  pstep idof p (Settle w pend) = Next p' s ->
  (In i en \/ (pend = true /\ i = idof o)) -> mfind i (regs p) = Some y ->
  exists x, In x (queue p') /\ idof x = idof y.
Proof. exact wakeup_scheduled. Qed.
Print Assumptions wakeup_is_scheduled.

(** And a worker that looks starts the first scheduled filter that is not executing,
    if it is due. *)
Theorem idle_worker_serves_first_filter :
  forall (idof : nat -> Z) (p : pool) w ready q1 o q2,
  locked p = false -> nth_error (workers p) w = Some Idle ->
  queue p = q1 ++ o :: q2 -> (forall x, In x q1 -> In x (flag p) /\ ~ In x (freed p)) ->
  ~ In o (flag p) -> ~ In o (freed p) -> ready o = true ->
  exists p', pstep idof p (Look w ready) = Next p' (Some o).
Proof. exact served. Qed.
Print Assumptions idle_worker_serves_first_filter.

(** C11 fails for two workers: a wake-up of an executing filter is dropped when a
    worker starts another filter that was scheduled behind it. *)
Theorem lost_wakeup_refuted :
  exists p tr p', prun Z.of_nat (newPool 2) p tr /\ In 0 (queue p) /\
    pstep Z.of_nat p (Look 1 always) = Next p' (Some 2) /\ ~ In 0 (queue p') /\
    exists q tr', prun Z.of_nat p' q tr' /\ queue q = [2] /\ (forall w, busy w (tr ++ (Look 1 always, Some 2) :: tr') <> Some 0).
Proof.
  destruct (replay Z.of_nat (newPool 2)
    [Add 0; Add 1; Look 0 always; Look 1 always; Finish 1 [0%Z]; Settle 1 false; Add 2]) as [[p tr]|] eqn:E;
    [|vm_compute in E; discriminate].
  exists p, tr. pose proof (replay_run _ _ _ _ _ E) as HR.
  vm_compute in E. inversion E; subst. eexists. split; [exact HR|]. split; [vm_compute; auto|].
  split; [vm_compute; reflexivity|]. split; [cbn; intros [H|[]]; discriminate|].
  match goal with |- exists q tr', prun _ ?p0 _ _ /\ _ =>
    destruct (replay Z.of_nat p0 [Finish 0 []; Settle 0 false]) as [[q tr']|] eqn:E2; [|vm_compute in E2; discriminate] end.
  exists q, tr'. split; [apply (replay_run _ _ _ _ _ E2)|]. vm_compute in E2. inversion E2; subst.
  split; [reflexivity|]. intros w. cbn.
  destruct w as [|[|w]]; vm_compute; discriminate.
Qed.
Print Assumptions lost_wakeup_refuted.

(** C12, for callers that remove only filters that are neither scheduled nor
    executing (and never add a removed filter again): a removed filter is not started
    again, and no step touches a deleted filter. *)
Theorem removed_filter_stays_out_partial :
  forall (idof : nat -> Z) (n : nat) (p : pool) tr,
  calm_run idof (newPool n) p tr ->
  (forall e, calm p e -> pstep idof p e <> UseAfterFree) /\
  (forall w ready p' o, pstep idof p (Look w ready) = Next p' (Some o) ->
     ~ In o (leaving p) /\ ~ In o (removed p)).
Proof.
  intros idof n p tr HR. pose proof (cinv_run idof n p tr HR) as C. split.
  - intros e He. apply calm_no_uaf; assumption.
  - intros w ready p' o H. cbn [pstep] in H. destruct (locked p); [discriminate|].
    destruct (nth_error (workers p) w) as [[|x|x en]|]; try discriminate.
    destruct (scan p ready (queue p)) as [y| |] eqn:Es; try discriminate. inversion H; subst.
    destruct (scan_job _ _ _ _ Es) as (Hin & _). destruct C as [Ho _ _ _ _ _].
    split; intros Hx; [destruct (Ho o (or_introl Hx))|destruct (Ho o (or_intror Hx))]; contradiction.
Qed.
Print Assumptions removed_filter_stays_out_partial.

Example calm_ex : exists p tr,
  calm_run Z.of_nat (newPool 1) p tr /\ removed p = [0] /\ freed p = [0] /\ queue p = [1].
Proof.
  eexists _, ((((((((([] ++ [_]) ++ [_]) ++ [_]) ++ [_]) ++ [_]) ++ [_]) ++ [_]) ++ [_]) ++ [_]).
  split.
  - eapply (cr_snoc _ _ _ _ (Free 0)); [eapply (cr_snoc _ _ _ _ (Look 0 (fun _ => false)));
     [eapply (cr_snoc _ _ _ _ (RemoveDone 0)); [eapply (cr_snoc _ _ _ _ (Remove 0));
     [eapply (cr_snoc _ _ _ _ (Add 1)); [eapply (cr_snoc _ _ _ _ (Settle 0 false));
     [eapply (cr_snoc _ _ _ _ (Finish 0 [])); [eapply (cr_snoc _ _ _ _ (Look 0 always));
     [eapply (cr_snoc _ _ _ [] (Add 0)); [apply cr_nil | |] | |] | |] | |] | |] | |] | |] | |] | |].
    all: try (cbn; tauto).
    all: try (cbn; reflexivity).
    cbn. intros o H. inversion H; subst. split; [intros [E|[]]; discriminate|]. intros s [E|[]]; subst; auto.
  - cbn. auto.
Qed.

(** Without any assumption on the callers: removeTask returns only when no worker is
    executing the filter. *)
Theorem removal_waits_for_execution :
  forall (idof : nat -> Z) (n : nat) (p : pool) tr o p' s,
  prun idof (newPool n) p tr -> pstep idof p (RemoveDone o) = Next p' s ->
  forall w, busy w tr <> Some o.
Proof.
  intros idof n p tr o p' s HR H w Hb. apply (busy_state idof n p tr HR) in Hb.
  destruct (inv_run idof n p tr HR) as [Hc _]. cbn [pstep] in H.
  destruct (negb (mem o (leaving p))); [discriminate|].
  destruct (mem o (freed p)); [discriminate|].
  destruct (mem o (flag p)) eqn:Ef; [discriminate|].
  assert (Hi : In o (flag p)).
  { apply (count_occ_In Nat.eq_dec). fold (cnt o (flag p)). rewrite Hc. clear -Hb.
    revert w Hb. induction (workers p) as [|h t IH]; intros [|w] Hb; cbn in Hb; try discriminate.
    - inversion Hb; subst. cbn. rewrite Nat.eqb_refl. lia.
    - specialize (IH w Hb). destruct h as [|x|x en]; cbn; lia. }
  unfold mem in Ef. assert (existsb (Nat.eqb o) (flag p) = true)
    by (apply existsb_exists; exists o; split; [exact Hi|apply Nat.eqb_refl]). congruence.
Qed.
Print Assumptions removal_waits_for_execution.

(** C12 fails otherwise: (1) a filter removed while it is scheduled is started after
    removeTask returned; (2) if it was deleted in between, the worker uses freed
    memory; (3) a filter removed while executing can be deleted before the worker
    calls pendingJobs on it. *)
Theorem removed_filter_runs_refuted :
  exists p tr p', prun Z.of_nat (newPool 1) p tr /\ removed p = [0] /\
    pstep Z.of_nat p (Look 0 always) = Next p' (Some 0).
Proof.
  destruct (replay Z.of_nat (newPool 1) [Add 0; Remove 0; RemoveDone 0]) as [[p tr]|] eqn:E;
    [|vm_compute in E; discriminate].
  exists p, tr. pose proof (replay_run _ _ _ _ _ E) as HR. vm_compute in E. inversion E; subst.
  eexists. split; [exact HR|]. split; reflexivity.
Qed.
Print Assumptions removed_filter_runs_refuted.

Theorem removed_filter_use_after_free_refuted :
  (exists p tr, prun Z.of_nat (newPool 1) p tr /\ pstep Z.of_nat p (Look 0 always) = UseAfterFree) /\
  (exists p tr, prun Z.of_nat (newPool 1) p tr /\ pstep Z.of_nat p (Settle 0 false) = UseAfterFree).
Proof.
  split.
  - destruct (replay Z.of_nat (newPool 1) [Add 0; Remove 0; RemoveDone 0; Free 0]) as [[p tr]|] eqn:E;
      [|vm_compute in E; discriminate].
    exists p, tr. pose proof (replay_run _ _ _ _ _ E) as HR. vm_compute in E. inversion E; subst.
    split; [exact HR|reflexivity].
  - destruct (replay Z.of_nat (newPool 1) [Add 0; Look 0 always; Remove 0; Finish 0 []; RemoveDone 0; Free 0]) as [[p tr]|] eqn:E;
      [|vm_compute in E; discriminate].
    exists p, tr. pose proof (replay_run _ _ _ _ _ E) as HR. vm_compute in E. inversion E; subst.
    split; [exact HR|reflexivity].
Qed.
Print Assumptions removed_filter_use_after_free_refuted.

(** C11 also fails across a removal: the stale entry of a removed filter swallows the
    first wake-up of a new filter that reuses its identifier. *)
Theorem reused_identifier_not_scheduled_refuted :
  exists p tr, prun (fun _ => 7%Z) (newPool 1) p tr /\ mfind 7 (regs p) = Some 1 /\ queue p = [0].
Proof.
  destruct (replay (fun _ => 7%Z) (newPool 1) [Add 0; Remove 7; RemoveDone 0; Add 1]) as [[p tr]|] eqn:E;
    [|vm_compute in E; discriminate].
  exists p, tr. pose proof (replay_run _ _ _ _ _ E) as HR. vm_compute in E. inversion E; subst.
  split; [exact HR|]. split; reflexivity.
Qed.
Print Assumptions reused_identifier_not_scheduled_refuted.
