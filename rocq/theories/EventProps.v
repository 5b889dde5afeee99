(** Property theorems C13: a filter's commands. *)
From Verif Require Import Base EventModel EventSpec EventProofs.
From Coq Require Import Permutation.

(** Every command sent is either still queued or has been taken off the queue exactly
    once, and nothing else was ever taken: over any history of sends and rounds. *)
Theorem commands_taken_exactly_once :
  forall q tr, erun q tr -> Permutation (sent tr) (taken tr ++ q).
Proof. exact conserve. Qed.
Print Assumptions commands_taken_exactly_once.

(** A command taken at clock reading [now] with a positive delay is taken only after
    its timestamp plus its delay; it was pending, no pending command had an earlier
    timestamp, and only known actions are run. *)
Theorem commands_run_in_time_order_partial :
  forall q tr pre o x post e, erun q tr -> tr = pre ++ (o, x) :: post ->
  x = Executed e \/ x = Dropped e ->
  (exists pos now, o = Round pos now /\
     ((0 < edelay e)%Z -> (estamp e + edelay e * 1000000 <= now)%Z) /\
     ((0 <= edelay e)%Z -> (estamp e - 1000000 < now)%Z)) /\
  (exists q0, erun q0 pre /\ Permutation (sent pre) (taken pre ++ q0) /\ In e q0 /\
     forall y, In y q0 -> (estamp e <= estamp y)%Z) /\
  (x = Executed e -> eknown e = true).
Proof.
  intros q tr pre o x post e HR E Hx.
  destruct (taken_due q tr HR pre o x post e E Hx) as ((pos & now & Eo & Hd) & (q0 & HR0 & Hin & Hmin) & Hk).
  split; [|split; [|exact Hk]].
  - exists pos, now. split; [exact Eo|]. split; intros Hp.
    + apply quot_elapsed; assumption.
    + apply quot_early. lia.
  - exists q0. split; [exact HR0|]. split; [apply conserve; exact HR0|]. split; assumption.
Qed.
Print Assumptions commands_run_in_time_order_partial.

(** As long as no new command arrives, commands are taken in the order of their
    timestamps. *)
Theorem commands_taken_sorted :
  forall q tr pre post, erun q tr -> tr = pre ++ post ->
  (forall e x, ~ In (Push e, x) post) -> by_time (taken post).
Proof. intros q tr pre post HR E Hp. apply (rounds_sorted q tr HR pre post E Hp). Qed.
Print Assumptions commands_taken_sorted.

(** A non-empty queue always has an earliest command, and if that command is due the
    next round takes it: the filter cannot refuse a due command that is first. *)
Theorem due_command_is_taken :
  forall q, q <> [] -> exists pos e, nth_error q pos = Some e /\
   (forall y, In y q -> (estamp e <= estamp y)%Z) /\
   (forall now, (0 <= edelay e)%Z -> (estamp e + edelay e * 1000000 <= now)%Z ->
      estep q (Round pos now) = Some (remove_at q pos, if eknown e then Executed e else Dropped e)).
Proof.
  intros q Hq. destruct (top_exists q Hq) as (pos & Ht). unfold is_top in Ht.
  destruct (nth_error q pos) as [e|] eqn:En; [|discriminate]. exists pos, e. split; [exact En|]. split.
  - rewrite forallb_forall in Ht. intros y Hy. specialize (Ht y Hy). unfold ev_less in Ht.
    apply negb_true_iff in Ht. rewrite Z.gtb_ltb in Ht. apply Z.ltb_ge in Ht. exact Ht.
  - intros now Hd Hn. apply due_executes; [unfold is_top; rewrite En; exact Ht|exact En|].
    unfold canBeExecuted. apply Z.leb_le. rewrite Z.quot_div_nonneg by lia.
    apply Z.div_le_lower_bound; lia.
Qed.
Print Assumptions due_command_is_taken.

(** Without the restriction to positive delays the delay rule fails: when the clock
    reads less than the timestamp (it was set back) by less than a millisecond, a
    command with delay 0 runs although its time has not come. *)
Theorem zero_delay_runs_early_refuted :
  exists q tr e pos now, erun q tr /\ In (Round pos now, Executed e) tr /\
    edelay e = 0%Z /\ (now < estamp e + edelay e * 1000000)%Z.
Proof.
  set (e := mkEvent 1 1000000 0 true).
  exists [], ([(Push e, Queued)] ++ [(Round 0 1, Executed e)]), e, 0, 1%Z.
  split; [|split; [right; left; reflexivity|split; [reflexivity|reflexivity]]].
  apply (er_snoc [e] [(Push e, Queued)] (Round 0 1) [] (Executed e)); [|reflexivity].
  apply (er_snoc [] [] (Push e) [e] Queued); [constructor|reflexivity].
Qed.
Print Assumptions zero_delay_runs_early_refuted.

(** Commands with equal timestamps may run in either order. *)
Theorem equal_timestamps_any_order_refuted :
  exists a b tr, a <> b /\ sent tr = [a; b] /\ ran tr = [b; a] /\ estamp a = estamp b /\ erun [] tr.
Proof.
  set (a := mkEvent 1 0 0 true). set (b := mkEvent 2 0 0 true).
  exists a, b, (((([] ++ [(Push a, Queued)]) ++ [(Push b, Queued)]) ++ [(Round 1 0, Executed b)]) ++ [(Round 0 0, Executed a)]).
  split; [discriminate|]. repeat (split; [reflexivity|]).
  eapply (er_snoc [a]); [eapply (er_snoc [a; b]); [eapply (er_snoc [a]); [eapply (er_snoc []); [constructor|]|]|]|]; reflexivity.
Qed.
Print Assumptions equal_timestamps_any_order_refuted.

(** A later command that is due does not overtake an earlier one that must wait. *)
Example waiting_command_blocks :
  let a := mkEvent 1 0 50 true in let b := mkEvent 2 1000 0 true in
  estep [b; a] (Round 1 2000000) = Some ([b; a], Quiet) /\ estep [b; a] (Round 0 2000000) = None /\
  estep [b; a] (Round 1 50000000) = Some ([b], Executed a).
Proof. vm_compute. auto. Qed.
