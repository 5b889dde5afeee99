(** Property theorems C04: one writer thread and one reader thread, any schedule. *)
From Verif Require Import Base RingIface RingModel SpscModel SpscSpec SpscProofs SpscForce.

(** C04. For every interleaving of the single loads and stores of a writer that
    does not force writes and a reader, the frames read and removed so far are a
    prefix of the frames published so far, word for word; the others are still in
    the queue and fit in it. [K] is the number of words of a frame. *)
Theorem concurrent_reader_gets_published_frames_in_order :
  forall (V : Type) (K n : nat) (w : Z) (ids : list Z) (blank : list V) (es : list (ev V)) s,
  1 <= n -> length blank = K -> ~ In WForce es ->
  srun K (sinit n w ids blank) es = Some s ->
  exists rest, pub s = got s ++ rest /\ length rest < Nat.min n 250.
Proof. exact (@spsc_main). Qed.
Print Assumptions concurrent_reader_gets_published_frames_in_order.

(** C04: a frame the reader has just copied out is, whole, the next published
    frame, even if the writer was writing other frames meanwhile. *)
Theorem concurrent_reader_sees_whole_frames :
  forall (V : Type) (K n : nat) (w : Z) (ids : list Z) (blank : list V) (es : list (ev V)) s f,
  1 <= n -> length blank = K -> ~ In WForce es ->
  srun K (sinit n w ids blank) es = Some s ->
  rp s = RRead f -> nth_error (pub s) (length (got s)) = Some f.
Proof. exact (@spsc_read_whole). Qed.
Print Assumptions concurrent_reader_sees_whole_frames.

(** C04: no schedule blocks or goes out of bounds: either thread can always make
    its next step. *)
Theorem concurrent_queue_never_stuck :
  forall (V : Type) (K n : nat) (w : Z) (ids : list Z) (blank : list V) (es : list (ev V)) s e,
  1 <= n -> length blank = K -> ~ In WForce es ->
  srun K (sinit n w ids blank) es = Some s ->
  match e with
  | W f => length f = K
  | WForce => False
  | WSkip => match wp s with WHave _ | WWriting _ _ _ | WDone _ => True | _ => False end
  | R => True
  | RSkip => match rp s with RHave _ | RReading _ _ | RRead _ => True | _ => False end
  end -> sstep K s e <> None.
Proof. exact (@spsc_progress). Qed.
Print Assumptions concurrent_queue_never_stuck.

(** A schedule that interleaves the second write with the first read. *)
Example concurrent_ex :
  exists s, srun 2 (sinit 3 7 [8%Z] [0; 0])
     (repeat (W [1; 2]) 9 ++ flat_map (fun _ => [R; W [3; 4]]) (seq 0 6)) = Some s /\
    rp s = RRead [1; 2] /\ wp s = WDone [3; 4] /\ pub s = [[1; 2]] /\ got s = [].
Proof. eexists. vm_compute. repeat split; reflexivity. Qed.

(** C04 fails for a forced writer: it moves [rear] back after having seen the
    queue full, while the reader empties it in between; the reader is then given
    frames nobody published (here the blank frame [[0]]). *)
Theorem concurrent_forced_writer_refuted :
  exists es s, srun 1 (sinit 3 7 [8%Z] [0]) es = Some s /\
    pub s = [[1]; [2]] /\ got s = [[1]; [2]; [0]].
Proof.
  exists (repeat (W [1]) 8 ++ repeat (W [2]) 8 ++ [WForce; WForce] ++ repeat R 16
          ++ [W []] ++ repeat R 8).
  eexists. vm_compute. repeat split; reflexivity.
Qed.
Print Assumptions concurrent_forced_writer_refuted.

(** C04 for a forced writer, when the reader takes no frame out between the writer's check that the queue is full and
    its move of [rear] (SpscSpec.calm): the reader gets a prefix of the frames the queue keeps, each whole; those are the
    published ones less the newest at each flush, and as many are missing as the queue reports lost. Missing: schedules
    in which the reader empties a place during the flush, see concurrent_forced_writer_refuted. *)
Theorem concurrent_forced_writer_partial :
  forall (V : Type) (K n : nat) (w : Z) (ids : list Z) (blank : list V) (es : list (ev V)) s,
  3 <= n -> length blank = K -> calm K (sinit n w ids blank) es ->
  srun K (sinit n w ids blank) es = Some s ->
  let k := kept K (sinit n w ids blank) [] es in
  (exists rest, k = got s ++ rest /\ length rest < Nat.min n 250) /\
  length (pub s) = length k + rlost (mem s) /\
  (forall f, rp s = RRead f -> nth_error k (length (got s)) = Some f).
Proof. exact (@force_main). Qed.
Print Assumptions concurrent_forced_writer_partial.

(** The queue of three places holds [1] and [2] and is full; the reader is reading [1] when [3] is forced in place of [2]. *)
Example concurrent_forced_ex :
  let es := repeat (W [1]) 8 ++ repeat (W [2]) 8 ++ [R; R; R] ++ [WForce; WForce; W []] ++ repeat (W [3]) 8 ++ repeat R 13 in
  calm 1 (sinit 3 7 [8%Z] [0]) es /\
  exists s, srun 1 (sinit 3 7 [8%Z] [0]) es = Some s /\ pub s = [[1]; [2]; [3]] /\ got s = [[1]; [3]] /\
    kept 1 (sinit 3 7 [8%Z] [0]) [] es = [[1]; [3]] /\ rlost (mem s) = 1.
Proof. split; [vm_compute; repeat split|]. eexists. vm_compute. repeat split; reflexivity. Qed.
