(** Property theorems C05: the queue between two filters is freed once and not
    used afterwards. *)
From Verif Require Import Base LifeModel LifeSpec LifeProofs.

(** C05. For every interleaving of the single queue accesses of both ends, if an
    end is only disconnected while its filter holds no frame of the queue, there
    is no use after free and no double free; once the queue has been destroyed no
    end will access it again (its pointer is NULL or about to be). *)
Theorem queue_never_used_after_free :
  forall vs, tidy_run connectedQueue vs = true ->
  exists l, lrun connectedQueue vs = Fine l /\ dels l <= 1 /\
    (dels l = 1 -> conn l = false /\
       (eptr (ew l) = true -> edpc (ew l) = DNull) /\ (eptr (er l) = true -> edpc (er l) = DNull)).
Proof. exact life_safe. Qed.
Print Assumptions queue_never_used_after_free.

Example queue_never_used_after_free_ex :
  let vs := [Check Wr; Check Rd; Acquire Wr; Acquire Rd; Touch Wr; Release Wr; DiscLoad Wr; Touch Rd;
             DiscAct Wr; Release Rd; Check Rd; DiscNull Wr; DiscLoad Rd; DiscAct Rd; DiscNull Rd] in
  tidy_run connectedQueue vs = true /\
  exists l, lrun connectedQueue vs = Fine l /\ dels l = 1.
Proof. split; [reflexivity|eexists; vm_compute; split; reflexivity]. Qed.

(** C05, exactly once: when the calls of the two ends do not overlap, the queue is
    destroyed exactly when both ends have disconnected, in either order and with
    any uses in between. *)
Theorem queue_freed_exactly_once :
  forall cs, exists l, lrun connectedQueue (flat_map expand cs) = Fine l /\
  dels l = (if existsb (is_disc Wr) cs && existsb (is_disc Rd) cs then 1 else 0).
Proof. exact whole_calls. Qed.
Print Assumptions queue_freed_exactly_once.

Example queue_freed_exactly_once_ex :
  exists l, lrun connectedQueue (flat_map expand [Use Wr; Disconnect Rd; Use Wr; Disconnect Wr; Use Rd; Disconnect Rd]) = Fine l
   /\ dels l = 1.
Proof. eexists; vm_compute; split; reflexivity. Qed.

(** C05 fails when the two disconnections overlap: both ends read the flag before
    either clears it, and nobody destroys the queue. *)
Theorem overlapping_disconnects_leak_refuted :
  exists vs l, tidy_run connectedQueue vs = true /\ lrun connectedQueue vs = Fine l /\
    eptr (ew l) = false /\ eptr (er l) = false /\ dels l = 0.
Proof.
  exists [DiscLoad Wr; DiscLoad Rd; DiscAct Wr; DiscAct Rd; DiscNull Wr; DiscNull Rd].
  eexists. vm_compute. repeat split; reflexivity.
Qed.
Print Assumptions overlapping_disconnects_leak_refuted.

(** C05 fails when an end is disconnected (by the command thread) while its filter
    is still processing a frame: doProcessFrame runs without the filter's lock
    (src/Filter.cpp 501-524). *)
Theorem disconnect_while_processing_refuted :
  exists vs, lrun connectedQueue vs = UseAfterFree.
Proof.
  exists (([Check Rd; Acquire Rd]) ++ [DiscLoad Rd; DiscAct Rd; DiscNull Rd] ++
          [DiscLoad Wr; DiscAct Wr; DiscNull Wr] ++ [Touch Rd]).
  reflexivity.
Qed.
Print Assumptions disconnect_while_processing_refuted.

(** C05 fails when the reading filter runs while a connection is being made:
    demandOriginFramesBestEffort (src/Filter.cpp 631-640) deletes a reader that is
    not connected yet, and with it the queue Writer::connect then marks as
    connected. *)
Theorem run_while_connecting_refuted :
  exists vs, tidy_run connectingQueue vs = true /\ lrun connectingQueue vs = UseAfterFree.
Proof.
  exists [Check Rd; DiscLoad Rd; DiscAct Rd; DiscNull Rd; Finish]. split; reflexivity.
Qed.
Print Assumptions run_while_connecting_refuted.
