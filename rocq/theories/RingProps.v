(** Property theorems C01, C02, C03: the frame queue as a bounded FIFO. *)
From Verif Require Import Base RingIface RingModel RingSpec RingProofs.

(** C01. Without forced writes, a queue created with [n] slots answers every
    history of requests exactly like a bounded list of capacity min(n,250)-1, and
    no history triggers undefined behaviour. *)
Theorem ring_is_bounded_fifo :
  forall (V : Type) (n : nat) (w : Z) (ids : list Z) (blank : V) (os : list (request V)),
  1 <= n -> ~ In Force os ->
  exists s xs, run (init n w ids blank) os = Some (s, xs) /\
    xs = snd (spec_run (spec_init (Nat.min n 250 - 1) w ids blank) os).
Proof. exact (@fifo_no_force). Qed.
Print Assumptions ring_is_bounded_fifo.

Example ring_is_bounded_fifo_ex :
  let os := [Request; Commit 1; Request; Scribble 9; Commit 2; Request; Peek; Remove;
             Request; Commit 3; Peek; Count; Remove; Peek; Last; Remove; Remove] in
  ~ In Force os /\
  snd (spec_run (spec_init 2 7 [8%Z] 0) os) =
   [Granted true; Ids [8%Z]; Granted true; Nothing; Ids [8%Z]; Granted false;
    Frame (Some 1); Id 7; Granted true; Ids [8%Z]; Frame (Some 2); Num 2; Id 7;
    Frame (Some 3); Frame (Some 2); Id 7; Id (-1)].
Proof. split; [intros H; cbn in H; intuition discriminate|reflexivity]. Qed.

(** C01, read off the history: the frames the reader finished are a prefix of the
    frames the writer published, the rest is still pending, fits the queue and is
    reported exactly. *)
Theorem ring_delivers_published_frames_in_order :
  forall (V : Type) (n : nat) (w : Z) (ids : list Z) (blank : V) (os : list (request V)) s xs,
  1 <= n -> ~ In Force os ->
  run (init n w ids blank) os = Some (s, xs) ->
  careful None (combine os xs) ->
  exists rest, published (combine os xs) = finished None (combine os xs) ++ rest /\
    length rest < Nat.min n 250 /\
    step s Count = Some (s, Num (length rest)).
Proof. exact (@delivered_prefix). Qed.
Print Assumptions ring_delivers_published_frames_in_order.

Example ring_delivers_published_frames_in_order_ex :
  exists s xs,
  let os := [Request; Commit 1; Peek; Request; Commit 2; Remove; Request; Commit 3; Peek; Remove] in
  run (init 3 7 [8%Z] 0) os = Some (s, xs) /\ careful None (combine os xs) /\
  finished None (combine os xs) = [1; 2] /\ published (combine os xs) = [1; 2; 3].
Proof. do 2 eexists. vm_compute. repeat split; try discriminate; reflexivity. Qed.

(** C01: the 90% "full" report used by synchronised filters is the strict
    comparison 10*pending > 9*slots; in particular a raw video queue (10 slots,
    Types.hh:41) never reports full although it accepts no more frames. *)
Theorem ring_full_report :
  forall (V : Type) (n : nat) (w : Z) (ids : list Z) (blank : V) (os : list (request V)) s xs,
  2 <= n -> run (init n w ids blank) os = Some (s, xs) ->
  isFull (sq s) = (9 * rmax (sq s) <? 10 * getElements (sq s)).
Proof. exact (@full_reports). Qed.
Print Assumptions ring_full_report.

Theorem raw_queue_full_report_refuted :
  exists os s xs, run (init 10 7 [8%Z] 0) os = Some (s, xs) /\
    step s Request = Some (mkSys (sq s) None (rheld s), Granted false) /\ isFull (sq s) = false.
Proof.
  exists (flat_map (fun k => [Request; Commit k]) (seq 1 9)).
  do 2 eexists. vm_compute. repeat split; reflexivity.
Qed.
Print Assumptions raw_queue_full_report_refuted.

(** C02. The buffer in the writer's hands is none of the pending frames' buffers
    and not the one the reader may read again, after any history. *)
Theorem offered_buffer_holds_no_unread_frame :
  forall (V : Type) (n : nat) (w : Z) (ids : list Z) (blank : V) (os : list (request V)) s xs i,
  1 <= n ->
  run (init n w ids blank) os = Some (s, xs) ->
  wheld s = Some i ->
  i < rmax (sq s) /\
  (forall k, k < getElements (sq s) -> (rfront (sq s) + k) mod rmax (sq s) <> i) /\
  (rfront (sq s) + (rmax (sq s) - 1)) mod rmax (sq s) <> i.
Proof. exact (@offered_slot_any). Qed.
Print Assumptions offered_buffer_holds_no_unread_frame.

(** C02: it is also not the frame the reader is working on, for three or more
    slots or without forced writes. *)
Theorem offered_buffer_not_in_readers_hand :
  forall (V : Type) (n : nat) (w : Z) (ids : list Z) (blank : V) (os : list (request V)) s xs i j,
  3 <= n \/ (1 <= n /\ forallb (fun o => negb (is_force o)) os = true) ->
  run (init n w ids blank) os = Some (s, xs) ->
  wheld s = Some i -> rheld s = Some j -> i <> j.
Proof. exact (@held_slot_lemma). Qed.
Print Assumptions offered_buffer_not_in_readers_hand.

Example offered_buffer_ex :
  exists s xs, run (init 3 7 [8%Z] 0) [Request; Commit 1; Request; Commit 2; Peek; Force] = Some (s, xs) /\
    wheld s = Some 1 /\ rheld s = Some 0 /\ getElements (sq s) = 1.
Proof. do 2 eexists. vm_compute. repeat split; reflexivity. Qed.

(** C02 fails for two slots: a forced write hands out the very buffer the reader
    is reading, and the reader sees the new bytes. *)
Theorem offered_buffer_two_slots_refuted :
  exists os s xs, run (init 2 7 [8%Z] 0) os = Some (s, xs) /\
    wheld s = Some 0 /\ rheld s = Some 0 /\
    xs = [Granted true; Ids [8%Z]; Frame (Some 1); Granted true; Nothing; Frame (Some 9)].
Proof.
  exists [Request; Commit 1; Peek; Force; Scribble 9; ReadHeld].
  do 2 eexists. vm_compute. repeat split; reflexivity.
Qed.
Print Assumptions offered_buffer_two_slots_refuted.

(** C03. With forced writes, a queue of three or more slots answers every history
    like the bounded list whose forced requests drop the newest frame when full. *)
Theorem forced_writes_drop_only_newest :
  forall (V : Type) (n : nat) (w : Z) (ids : list Z) (blank : V) (os : list (request V)),
  3 <= n ->
  exists s xs, run (init n w ids blank) os = Some (s, xs) /\
    xs = snd (spec_run (spec_init (Nat.min n 250 - 1) w ids blank) os).
Proof. exact (@fifo_force). Qed.
Print Assumptions forced_writes_drop_only_newest.

(** Two slots: everything but reading through a frame pointer kept across the
    forced write (see offered_buffer_two_slots_refuted). *)
Theorem forced_writes_two_slots_partial :
  forall (V : Type) (n : nat) (w : Z) (ids : list Z) (blank : V) (os : list (request V)),
  2 <= n -> ~ In ReadHeld os ->
  exists s xs, run (init n w ids blank) os = Some (s, xs) /\
    xs = snd (spec_run (spec_init (Nat.min n 250 - 1) w ids blank) os).
Proof. exact (@fifo_force2). Qed.
Print Assumptions forced_writes_two_slots_partial.

Example forced_writes_ex :
  snd (spec_run (spec_init 2 7 [8%Z] 0)
    [Request; Commit 1; Request; Commit 2; Request; Force; Commit 3; Lost; Peek; Remove; Peek; Remove]) =
   [Granted true; Ids [8%Z]; Granted true; Ids [8%Z]; Granted false; Granted true; Ids [8%Z]; Num 1;
    Frame (Some 1); Id 7; Frame (Some 3); Id 7].
Proof. reflexivity. Qed.

(** C03: a forced request returns after at most one discarded frame, and discards
    one exactly when the queue is full. *)
Theorem forced_write_returns :
  forall (V : Type) (n : nat) (w : Z) (ids : list Z) (blank : V) (os : list (request V)) s xs,
  2 <= n ->
  run (init n w ids blank) os = Some (s, xs) ->
  exists q i, (forall fuel, 1 <= fuel -> forceGetRear fuel (sq s) = Ok (q, i)) /\
     rlost (sq s) <= rlost q <= rlost (sq s) + 1 /\
     (rlost q = rlost (sq s) <-> getElements (sq s) < rmax (sq s) - 1).
Proof. exact (@force_returns). Qed.
Print Assumptions forced_write_returns.

(** C03: order is preserved and the loss counter is exact: every published frame
    was finished, is pending or was counted as lost. *)
Theorem forced_writes_account_for_every_frame :
  forall (V : Type) (n : nat) (w : Z) (ids : list Z) (blank : V) (os : list (request V)) s xs,
  3 <= n ->
  run (init n w ids blank) os = Some (s, xs) ->
  careful None (combine os xs) ->
  exists rest nlost, subseq (finished None (combine os xs) ++ rest) (published (combine os xs)) /\
    step s Count = Some (s, Num (length rest)) /\
    step s Lost = Some (s, Num nlost) /\
    length (published (combine os xs)) =
      length (finished None (combine os xs)) + length rest + nlost.
Proof. exact (@conserved_with_force). Qed.
Print Assumptions forced_writes_account_for_every_frame.

Example forced_writes_account_ex :
  exists s xs,
  let os := [Request; Commit 1; Force; Commit 2; Force; Commit 3; Force; Commit 4; Peek; Remove] in
  run (init 3 7 [8%Z] 0) os = Some (s, xs) /\ careful None (combine os xs) /\
  finished None (combine os xs) = [1] /\ published (combine os xs) = [1; 2; 3; 4] /\
  step s Lost = Some (s, Num 2).
Proof. do 2 eexists. vm_compute. repeat split; try discriminate; reflexivity. Qed.

(** C03 fails for a queue created with one slot: a forced request never returns;
    and with zero slots (which createNew accepts) every request divides by zero. *)
Theorem forced_write_one_slot_refuted :
  forall fuel, forceGetRear fuel (sq (init 1 7 [8%Z] 0)) = NoReturn.
Proof. exact (force_diverges (sq (init 1 7 [8%Z] 0)) eq_refl eq_refl eq_refl). Qed.
Print Assumptions forced_write_one_slot_refuted.

Theorem zero_slot_queue_refuted :
  getRear (sq (init 0 7 [8%Z] 0)) = DivByZero.
Proof. exact eq_refl. Qed.
Print Assumptions zero_slot_queue_refuted.
