(** C38: rounds of a filter with several inputs, a frame time and synchronisation. *)
From Verif Require Import Base ZMap SyncModel SyncSpec SyncProofs.
Local Open Scope list_scope.
Local Open Scope Z_scope.

Definition reachable (f : filt) : Prop := exists sy ops es, srun (filt0 sy) ops = (f, es).
Lemma srun_app : forall a b f, srun f (a ++ b) = let '(f1, e1) := srun f a in let '(f2, e2) := srun f1 b in (f2, e1 ++ e2).
Proof.
  induction a as [|o a IH]; intros b f; cbn [app srun]; [destruct (srun f b); reflexivity|]. destruct (sstep f o) as [f1 e1]. rewrite IH. destruct (srun f1 a) as [f2 e2]. destruct (srun f2 b) as [f3 e3]. rewrite app_assoc. reflexivity.
Qed.
Lemma srun_keep : forall ops f f' es, srun f ops = (f', es) -> msorted (ins f) -> 0 <= syncTs f -> msorted (ins f') /\ 0 <= syncTs f'.
Proof.
  induction ops as [|o ops IH]; intros f f' es E S P; cbn [srun] in E; [injection E as <- <-; auto|]. destruct (sstep f o) as [f1 e1] eqn:E1. destruct (srun f1 ops) as [f2 e2] eqn:E2. injection E as <- <-.
  apply (IH f1 f2 e2 E2); [apply (sstep_sorted _ _ _ _ E1 S)|]. pose proof (sstep_ref _ _ _ _ E1 P). lia.
Qed.
Lemma reachable_inv f : reachable f -> msorted (ins f) /\ 0 <= syncTs f.
Proof. intros (sy & ops & es & E). apply (srun_keep _ _ _ _ E); [exact I|cbn; lia]. Qed.

(** The reference time never goes back, whatever arrives, is connected, disconnected or reconfigured. *)
Theorem C38_reference_never_back sy ops f es : srun (filt0 sy) ops = (f, es) -> nondecr (map ref es).
Proof. intros E. apply srun_refs in E; [|cbn; lia]. apply nondecr_cons in E. apply E. Qed.

(** With a frame time, any number of inputs: every round that processes has a frame in step with the reference, and
    these times never go back and keep the frame rate. *)
Theorem C38_frame_rate_kept f ft ops f' es : reachable f -> 0 < ft -> frameTime f = ft -> Forall noFrameTime ops -> srun f ops = (f', es) ->
  exists ts, picks ts (processed es) /\ nondecr ts /\ paced ft ts.
Proof.
  intros R F FT N E. apply reachable_inv in R. destruct (paced_run ft F ops f f' es E (proj2 R) FT N) as (ts & P & _ & A & B). exists ts. auto.
Qed.
(** A round that processes moves the reference by the frame time when one of its frames lies in the period, or else
    to the earliest of its frames, which all lie beyond the period. One that takes frames without processing
    them (when there is room for the result) has only late frames or frames from beyond the period, and at least one
    late. *)
Theorem C38_rounds f full dst f' ok fr : reachable f -> 0 < frameTime f -> round full dst f = (f', ok, fr) ->
  (ok = true ->
    (syncTs f' = syncTs f + frameTime f /\ exists i t, In (i, t) fr /\ syncTs f <= t <= syncTs f + frameTime f) \/
    (syncTs f' > syncTs f + frameTime f /\ (exists i, In (i, syncTs f') fr) /\ forall i t, In (i, t) fr -> syncTs f' <= t)) /\
  (ok = false -> dst = true -> fr <> [] -> syncTs f' = syncTs f /\ (exists i t, In (i, t) fr /\ t < syncTs f) /\ forall i t, In (i, t) fr -> t < syncTs f \/ syncTs f + frameTime f < t).
Proof.
  intros R F E. apply reachable_inv in R. apply round_spec in E; [|apply R]. destruct E as (_ & _ & _ & E). destruct (E F) as (E1 & _ & E2). split.
  - intros O. destruct (E1 O) as (A & ([i t] & B & C) & [(D1 & D2)|(D1 & [j u] & D2 & D3)]).
    + right. split; [exact D1|]. split; [|intros k u U; exact (D2 _ U)]. exists i. specialize (D2 _ B). cbn [snd] in *. replace (syncTs f') with t by lia. exact B.
    + left. split; [exact D1|]. exists j, u. auto.
  - intros O D NE. destruct (E2 D O) as (A & [B|((x & B1 & B2) & B3)]); [congruence|]. split; [exact A|]. split; [destruct x as [i t]; exists i, t; auto|]. intros i t I. specialize (B3 _ I). cbn [snd] in B3. lia.
Qed.
(** A filter is never run without a new frame. *)
Theorem C38_never_run_for_nothing f full dst f' fr : round full dst f = (f', true, fr) -> fr <> [].
Proof.
  unfold round. destruct (mkeys (ins f)) as [|k ks]; [discriminate|]. destruct (framesSync full f) as [|i is]; [discriminate|].
  destruct (frameTime f <=? 0).
  - destruct (fronts _ _); cbn [andb]; [discriminate|]. intros E F. inversion E; subst fr; discriminate.
  - destruct (fronts (k :: ks) (ins f)) as [|x l].
    + cbn [frameTimeDemand andb]. discriminate.
    + destruct (frameTimeDemand _ _). intros E F. inversion E; subst fr; discriminate.
Qed.
Print Assumptions C38_never_run_for_nothing.
(** One input, exactly: a frame is dropped if and only if it is older than the reference. *)
Theorem C38_single_input f i t q full : reachable f -> 0 < frameTime f -> ins f = [(i, t :: q)] -> 0 <= t ->
  exists f' ok, round full true f = (f', ok, [(i, t)]) /\ ins f' = [(i, q)] /\ (ok = true <-> syncTs f <= t) /\
    syncTs f' = (if t <? syncTs f then syncTs f else Z.max t (syncTs f + frameTime f)).
Proof.
  intros R F E T. apply reachable_inv in R. destruct R as [_ R]. unfold round, framesSync. rewrite E. cbn [mkeys map fst wallClock fold_left snd currentTime existsb filter].
  assert (NZ : (t =? NO_DTS) = false) by (apply Z.eqb_neq; unfold NO_DTS; lia). rewrite NZ. cbn [orb negb andb].
  destruct (Z.leb_spec (frameTime f) 0); [lia|].
  assert (ID : (if negb (sync f) then [i] else if negb match map fst (if full i || (((if 0 <? t then t else 0) - syncMargin) >? t) then [(i, t :: q)] else []) with [] => true | _ :: _ => false end then map fst (if full i || (((if 0 <? t then t else 0) - syncMargin) >? t) then [(i, t :: q)] else []) else [i]) = [i]).
  { destruct (negb (sync f)); [reflexivity|]. destruct (full i || _); reflexivity. }
  rewrite ID. cbn [fronts flat_map mfind]. rewrite Z.eqb_refl. cbn [app map fst removeFrames fold_left]. unfold dropFront. cbn [mfind]. rewrite Z.eqb_refl. cbn [mset]. rewrite Z.eqb_refl.
  unfold frameTimeDemand, scan. cbn [fold_left]. unfold scanF. cbn [snd]. destruct (Z.gtb_spec t (syncTs f + frameTime f)).
  - cbn [negb andb]. change (-1 <? 0) with true. cbv iota. destruct (Z.gtb_spec t (syncTs f)); [|lia]. cbn [andb]. eexists. eexists. split; [reflexivity|]. cbn [ins syncTs]. split; [reflexivity|]. split; [split; [lia|reflexivity]|]. destruct (Z.ltb_spec t (syncTs f)); lia.
  - destruct (Z.ltb_spec t (syncTs f)).
    + cbn [negb andb]. eexists. eexists. split; [reflexivity|]. cbn [ins syncTs]. split; [reflexivity|]. rewrite andb_false_r. split; [split; [discriminate|lia]|]. reflexivity.
    + cbn [negb andb]. eexists. eexists. split; [reflexivity|]. cbn [ins syncTs]. split; [reflexivity|]. split; [split; [lia|reflexivity]|]. lia.
Qed.
(** No frame is lost, repeated or reordered on the way: what has been taken from an input and what is still queued
    is what has arrived. *)
Theorem C38_inputs_in_order f i ops f' es q : reachable f -> mfind i (ins f) = Some q -> ~ In (DelInput i) ops -> srun f ops = (f', es) ->
  exists q', mfind i (ins f') = Some q' /\ takenFrom i es ++ q' = q ++ arrivals i ops.
Proof. intros R Q N E. apply reachable_inv in R. apply (srun_fifo i ops f f' es q E (proj1 R) N Q). Qed.

(** Synchronised inputs without a frame time: a frame is only taken from an input that is full, or from one whose
    frame is more than the margin older than that of another, or when every input has a frame within the margin and
    all of them are taken. *)
Theorem C38_synchronised f full dst f' ok fr i t : reachable f -> sync f = true -> frameTime f <= 0 -> timed (ins f) -> round full dst f = (f', ok, fr) -> In (i, t) fr ->
  full i = true \/ (exists j t', front f j t' /\ t < t' - syncMargin) \/
  (forall j, input f j -> full j = false /\ exists t', In (j, t') fr /\ t - syncMargin <= t' <= t + syncMargin).
Proof.
  intros R SY FT TM E X. apply reachable_inv in R. destruct R as [S _]. apply round_queues in E; [|exact S]. destruct E as (ids & ND & -> & _ & [->|[(_ & ->)|(L & _)]]); [destruct X| |lia].
  pose proof X as X0. apply in_fronts in X. destruct X as (X1 & q & X2). destruct (sync_spec full f i t SY S TM X1 (ex_intro _ q X2)) as [A|[A|(A & B)]]; [left; exact A|right; left; exact A|]. right. right. intros j J. destruct (A j J) as (A1 & t' & (r & A2) & A3). split; [exact A1|]. exists t'. split; [|exact A3]. apply in_fronts. split; [|exists r; exact A2]. rewrite B. apply mkeys_in. destruct J as (q' & J). congruence.
Qed.
(** When every input has a frame something is taken. *)
Theorem C38_progress f full dst : reachable f -> sync f = true -> frameTime f <= 0 -> timed (ins f) -> ins f <> [] -> (forall j, input f j -> exists t, front f j t) -> exists f' fr, round full dst f = (f', dst, fr) /\ fr <> [].
Proof.
  intros R SY FT TM NE H. apply reachable_inv in R. destruct R as [S _].
  assert (HQ : forall j q, mfind j (ins f) = Some q -> q <> []) by (intros j q Q ->; destruct (H j (ex_intro _ _ Q)) as (t & r & E); congruence).
  pose proof (sync_progress full f SY S TM NE HQ) as P. destruct (framesSync full f) as [|i l] eqn:EF; [congruence|].
  assert (IK : In i (mkeys (ins f))).
  { assert (In i (framesSync full f)) by (rewrite EF; left; reflexivity). unfold framesSync in H0. rewrite SY in H0. cbn [negb] in H0. cbv zeta in H0. destruct (_ || _); [|exact H0]. apply in_map_iff in H0. destruct H0 as (x & E & X). apply filter_In in X. apply in_map_iff. exists x. split; [exact E|apply X]. }
  assert (FR : exists t, In (i, t) (fronts (i :: l) (ins f))). { apply mkeys_in in IK. destruct (mfind i (ins f)) as [q|] eqn:Q; [|congruence]. destruct (H i (ex_intro _ _ Q)) as (t & r & E). exists t. apply in_fronts. split; [left; reflexivity|exists r; exact E]. }
  unfold round. rewrite EF. destruct (mkeys (ins f)) as [|k ks]; [destruct IK|]. destruct (Z.leb_spec (frameTime f) 0); [|lia]. cbv zeta. destruct FR as (t & FR). destruct (fronts (i :: l) (ins f)) as [|x y]; [destruct FR|]. eexists. eexists. split; [reflexivity|discriminate].
Qed.
(** Two synchronised inputs that never get full, each with times in order: what is taken later from either is at
    most the margin older than what was taken before. *)
Theorem C38_two_inputs_in_step_partial f a b ops f' es es1 e es2 e' i j t t' : reachable f -> sync f = true -> frameTime f <= 0 -> (forall k, input f k <-> k = a \/ k = b) ->
  Forall plain ops -> Forall neverFull ops -> (forall i q, mfind i (ins f) = Some q -> nondecr (q ++ arrivals i ops) /\ forall t, In t (q ++ arrivals i ops) -> 0 <= t) ->
  srun f ops = (f', es) -> es = es1 ++ e :: es2 -> In e' (e :: es2) -> In (i, t) (taken e) -> In (j, t') (taken e') -> t' >= t - syncMargin.
Proof.
  intros R SY FT IN PL NF MO E EE I1 I2 I3. apply reachable_inv in R. eapply (dual_order a b ops f f' es); try eassumption. constructor; try assumption; apply R.
Qed.

(** *** Examples *)
Definition hist1 : list sop := [AddInput 1; SetFrameTime 40000; Arrive 1 100000; Round (fun _ => false) true; Arrive 1 120000; Arrive 1 150000; Round (fun _ => false) true; Arrive 1 110000; Round (fun _ => false) true; Round (fun _ => false) true].
Example C38_example_rate : srun (filt0 false) hist1 = (mkFl [(1, [])] 180000 40000 false,
  [mkE true [(1, 100000)] 100000; mkE true [(1, 120000)] 140000; mkE true [(1, 150000)] 180000; mkE false [(1, 110000)] 180000]).
Proof. vm_compute. reflexivity. Qed.
Example C38_example_reachable : reachable (mkFl [(1, [5; 7]); (2, [9])] 0 0 true).
Proof. exists true, [AddInput 1; AddInput 2; Arrive 1 5; Arrive 2 9; Arrive 1 7], []. reflexivity. Qed.
Example C38_example_sync : round (fun _ => false) true (mkFl [(1, [5; 7]); (2, [9])] 0 0 true) = (mkFl [(1, [7]); (2, [])] 0 0 true, true, [(1, 5); (2, 9)]) /\
  round (fun _ => false) true (mkFl [(1, [5; 7]); (2, [90000])] 0 0 true) = (mkFl [(1, [7]); (2, [90000])] 0 0 true, true, [(1, 5)]) /\
  round (fun _ => false) true (mkFl [(1, [5; 7]); (2, [])] 0 0 true) = (mkFl [(1, [5; 7]); (2, [])] 0 0 true, false, []).
Proof. repeat split. Qed.
Example C38_example_two : let f := mkFl [(1, [5; 7]); (2, [9])] 0 0 true in
  (forall k, input f k <-> k = 1 \/ k = 2) /\ (forall i q, mfind i (ins f) = Some q -> nondecr (q ++ arrivals i [Round (fun _ => false) true; Arrive 2 50]) /\ forall t, In t (q ++ arrivals i [Round (fun _ => false) true; Arrive 2 50]) -> 0 <= t).
Proof.
  cbv zeta. split.
  - intros k. unfold input. cbn. destruct (Z.eqb_spec k 1), (Z.eqb_spec k 2); split; try lia; intros; try (eexists; reflexivity); try tauto. destruct H; discriminate.
  - intros i q. cbn [ins mfind]. destruct (Z.eqb_spec i 1) as [->|]; [intros H; injection H as <-; cbn; split; [lia|]; intros t [<-|[<-|[]]]; lia|]. destruct (Z.eqb_spec i 2) as [->|]; [|discriminate]. intros H. injection H as <-. cbn. split; [lia|]. intros t [<-|[<-|[]]]; lia.
Qed.

(** *** Refuted *)
(** With three inputs frames are taken out of step: the second input's ten second frame before the first one's next. *)
Theorem C38_three_inputs_refuted : exists f f1 f2 e, reachable f /\ sync f = true /\ frameTime f = 0 /\ round (fun _ => false) true f = (f1, true, e) /\ In (2, 10000000) e /\ round (fun _ => false) true f1 = (f2, true, [(1, 40000)]).
Proof.
  exists (mkFl [(1, [0; 40000]); (2, [10000000]); (3, [100000000])] 0 0 true). eexists. eexists. eexists. split; [exists true, [AddInput 1; AddInput 2; AddInput 3; Arrive 1 0; Arrive 1 40000; Arrive 2 10000000; Arrive 3 100000000], []; reflexivity|].
  split; [reflexivity|]. split; [reflexivity|]. split; [vm_compute; reflexivity|]. split; [right; left; reflexivity|]. vm_compute. reflexivity.
Qed.
(** An input that is full gives its frame however far ahead it is. *)
Theorem C38_full_input_refuted : exists f f' fr, reachable f /\ sync f = true /\ round (fun i => i =? 2) true f = (f', true, fr) /\ fr = [(1, 0); (2, 100000000)].
Proof.
  exists (mkFl [(1, [0; 40000]); (2, [100000000])] 0 0 true). eexists. eexists. split; [exists true, [AddInput 1; AddInput 2; Arrive 1 0; Arrive 1 40000; Arrive 2 100000000], []; reflexivity|]. split; [reflexivity|]. split; [vm_compute; reflexivity|reflexivity].
Qed.
(** A frame whose time is -1 microseconds is taken for an empty queue: a synchronised filter with this input only
    never does anything again, whatever arrives and even when the queue is full. *)
Lemma stuck_round full dst q ft s : round full dst (mkFl [(1, -1 :: q)] s ft true) = (mkFl [(1, -1 :: q)] s ft true, false, []).
Proof. reflexivity. Qed.
Theorem C38_minus_one_refuted ops f' es : Forall plain ops -> srun (mkFl [(1, [-1])] 0 0 true) ops = (f', es) -> Forall (fun e => done e = false /\ taken e = []) es.
Proof.
  assert (G : forall ops q s ft f' es, Forall plain ops -> srun (mkFl [(1, -1 :: q)] s ft true) ops = (f', es) -> Forall (fun e => done e = false /\ taken e = []) es).
  { induction ops0 as [|o ops0 IH]; intros q s ft f0 es0 P E; cbn [srun] in E; [injection E as <- <-; constructor|]. pose proof (Forall_inv P) as P0. apply Forall_inv_tail in P. destruct o as [i t|full dst|?|?|?]; try destruct P0; cbn [sstep] in E.
    - unfold push in E. cbn [ins mfind syncTs frameTime sync] in E. destruct (Z.eqb_spec i 1) as [->|].
      + cbn [mset Z.eqb Z.compare Pos.compare Pos.compare_cont app Pos.eqb] in E. destruct (srun (mkFl [(1, -1 :: q ++ [t])] s ft true) ops0) as [f2 e2] eqn:E2. injection E as <- <-. apply (IH _ _ _ _ _ P E2).
      + destruct (srun (mkFl [(1, -1 :: q)] s ft true) ops0) as [f2 e2] eqn:E2. injection E as <- <-. apply (IH _ _ _ _ _ P E2).
    - rewrite stuck_round in E. destruct (srun (mkFl [(1, -1 :: q)] s ft true) ops0) as [f2 e2] eqn:E2. injection E as <- <-. constructor; [split; reflexivity|]. apply (IH _ _ _ _ _ P E2). }
  intros P E. apply (G _ _ _ _ _ _ P E).
Qed.
(** With a frame time and several inputs, frames far in the future and frames older than the reference are handed
    over together with one that is in step; and synchronisation is ignored. *)
Theorem C38_scope_refuted : exists f f', reachable f /\ sync f = true /\ frameTime f = 40000 /\ syncTs f = 100000 /\ round (fun _ => false) true f = (f', true, [(1, 120000); (2, 90000000); (3, 5)]).
Proof.
  exists (mkFl [(1, [120000]); (2, [90000000]); (3, [5])] 100000 40000 true). eexists. split; [|split; [reflexivity|split; [reflexivity|split; [reflexivity|vm_compute; reflexivity]]]].
  exists true, [AddInput 1; AddInput 2; AddInput 3; SetFrameTime 40000; Arrive 1 100000; Arrive 2 100000; Arrive 3 100000; Round (fun _ => false) true; Arrive 1 120000; Arrive 2 90000000; Arrive 3 5]. eexists. vm_compute. reflexivity.
Qed.

Print Assumptions C38_reference_never_back.
Print Assumptions C38_frame_rate_kept.
Print Assumptions C38_rounds.
Print Assumptions C38_single_input.
Print Assumptions C38_inputs_in_order.
Print Assumptions C38_synchronised.
Print Assumptions C38_progress.
Print Assumptions C38_two_inputs_in_step_partial.
Print Assumptions C38_three_inputs_refuted.
Print Assumptions C38_full_input_refuted.
Print Assumptions C38_minus_one_refuted.
Print Assumptions C38_scope_refuted.
