(** Model of stopping the pool of workers while they work: src/WorkersPool.cpp 72-142 (the threads), 145-160 (stop), 162-195 (the
    lock taken by addTask and removeTask).

    Simplified: which job is picked, and whether one is found, is left open (Pool has the queue); a round of a job ends
    (that its locks do not block it is C99); waits on the condition variable end by a notification or by their time, which are not
    told apart; threads are created before anything else happens; reading and writing [run] is atomic (it is a plain bool). *)
From Verif Require Import Base.
Local Open Scope nat_scope.

(** Where a worker is, WorkersPool.cpp 88-138: before taking the lock (89); testing run (91); looking for a job, run having been true (92-102); waiting (94, 96); woken, to take the
    lock again; behind the loop (107); to begin the job (113); in runProcessFrame (118); before the lock (120); putting jobs into the
    queue (121-132); ended (108). *)
Inductive wpc := Top | Loop | Looks | Waiting | Woken | Behind | Begins | Working | Want | Putting | Ended.
(** Where the thread that stops the pool is, WorkersPool.cpp 150-160: before; to notify (153); joining worker [k] (154-157); returned. *)
Inductive spc := Idle | Notifying | Joining (k : nat) | Stopped.
(** Who has the lock mtx: a worker, or a thread in addTask or removeTask. *)
Inductive holder := W (i : nat) | Client.
(** Model's own: the pool's threads; run (WorkersPool.hh); mtx; the stopping thread; how many calls of addTask and removeTask are to come. *)
Record pool := mkP { wk : list wpc; running : bool; lock : option holder; stopper : spc; calls : nat }.
(** WorkersPool.cpp 72-81, with [n] threads. *)
Definition newPool (n c : nat) : pool := mkP (repeat Top n) true None Idle c.
(** Model's own: worker [i] goes on to [x]. *)
Fixpoint upd (l : list wpc) (i : nat) (x : wpc) : list wpc :=
  match l, i with
  | [], _ => []
  | _ :: r, O => x :: r
  | a :: r, S j => a :: upd r j x
  end.
(** notify_all, WorkersPool.cpp 153. *)
Definition wake (x : wpc) : wpc := match x with Waiting => Woken | _ => x end.
(** Model's own: what is seen of the pool. *)
Inductive event := Begin (i : nat) | Finish (i : nat) | Stop | Return | Tau.
(** Model's own: worker [i] moves to [x], and the lock becomes [l]. *)
Definition move (s : pool) (i : nat) (x : wpc) (l : option holder) : pool := mkP (upd (wk s) i x) (running s) l (stopper s) (calls s).

(** One step of one thread; the lines of WorkersPool.cpp are at each. *)
Inductive step : pool -> event -> pool -> Prop :=
(* 89 *)
| st_top s i : nth_error (wk s) i = Some Top -> lock s = None -> step s Tau (move s i Loop (Some (W i)))
(* 91 *)
| st_look s i : nth_error (wk s) i = Some Loop -> running s = true -> step s Tau (move s i Looks (lock s))
(* 92-96, 100-102 *)
| st_wait s i : nth_error (wk s) i = Some Looks -> step s Tau (move s i Waiting None)
(* 97-99 *)
| st_pop s i : nth_error (wk s) i = Some Looks -> step s Tau (move s i Behind (lock s))
(* 91 *)
| st_out s i : nth_error (wk s) i = Some Loop -> running s = false -> step s Tau (move s i Behind (lock s))
(* 107-108, the guard's destructor *)
| st_end s i : nth_error (wk s) i = Some Behind -> running s = false -> step s Tau (move s i Ended None)
(* 107 *)
| st_go s i : nth_error (wk s) i = Some Behind -> running s = true -> step s Tau (move s i Begins (lock s))
(* 113-118 *)
| st_begin s i : nth_error (wk s) i = Some Begins -> step s (Begin i) (move s i Working None)
(* 118 *)
| st_finish s i : nth_error (wk s) i = Some Working -> step s (Finish i) (move s i Want (lock s))
(* 120 *)
| st_lock s i : nth_error (wk s) i = Some Want -> lock s = None -> step s Tau (move s i Putting (Some (W i)))
(* 121-137 *)
| st_put s i : nth_error (wk s) i = Some Putting -> step s Tau (move s i Top None)
(* 94, 96 *)
| st_wake s i : nth_error (wk s) i = Some Waiting -> step s Tau (move s i Woken (lock s))
(* 94, 96, 104, 91 *)
| st_again s i : nth_error (wk s) i = Some Woken -> lock s = None -> step s Tau (move s i Loop (Some (W i)))
(* 168, 181 *)
| st_call s c : calls s = S c -> lock s = None -> step s Tau (mkP (wk s) (running s) (Some Client) (stopper s) c)
(* 172, 175, 185, 194 *)
| st_called s : lock s = Some Client -> step s Tau (mkP (wk s) (running s) None (stopper s) (calls s))
(* 152 *)
| st_stop s : stopper s = Idle -> step s Stop (mkP (wk s) false (lock s) Notifying (calls s))
(* 153 *)
| st_notify s : stopper s = Notifying -> step s Tau (mkP (map wake (wk s)) (running s) (lock s) (Joining 0) (calls s))
(* 154-157 *)
| st_join s k : stopper s = Joining k -> nth_error (wk s) k = Some Ended -> step s Tau (mkP (wk s) (running s) (lock s) (Joining (S k)) (calls s))
(* 159-160 *)
| st_return s : stopper s = Joining (length (wk s)) -> step s Return (mkP (wk s) (running s) (lock s) Stopped (calls s)).

(** Model's own: steps one after the other, with what is seen, the last first. *)
Inductive steps : pool -> list event -> pool -> Prop :=
| ss_none s : steps s [] s
| ss_more s es s1 e s2 : steps s es s1 -> step s1 e s2 -> steps s (e :: es) s2.
