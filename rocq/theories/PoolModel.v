(** Model of the worker pool (src/WorkersPool.cpp).

    A Runnable object is a number [o]; its identifier [idof o] is set once
    (Runnable::setId, src/Runnable.cpp 71-85) and does not change. Each event is the
    code one thread executes between two points where another thread can
    interfere: while it holds WorkersPool::mtx, or one unlocked access.
    Simplifications: condition variables only delay a worker, so waiting is "the worker's
    next look comes later" (Look may happen at any time); [ready()] depends on the
    clock and is an arbitrary oracle of the event; the filter's own work is an
    arbitrary list of enabled identifiers; the pool is not stopped. Elements of
    sQueue other than the one searched, inserted or erased are not dereferenced. *)
From Verif Require Import Base ZMap.

Inductive wstate :=
| Idle                                   (* 88-110: looking for a job *)
| Running (o : nat)                      (* 112-121: executing o's runProcessFrame *)
| Settling (o : nat) (en : list Z).      (* 123-137: holds mtx, o->unsetRunning() done *)

Record pool := mkPool {
  workers : list wstate;
  queue   : list nat;          (* TaskQueue::queue; sQueue holds the same objects *)
  regs    : zmap nat;          (* runnables *)
  flag    : list nat;          (* objects whose run flag is set (one entry per set) *)
  leaving : list nat;          (* objects some removeTask is waiting for (190-193) *)
  removed : list nat;          (* objects whose removeTask has returned true *)
  freed   : list nat           (* objects deleted by the pipeline manager *)
}.

Section Pool.
Variable idof : nat -> Z.

Inductive pevent :=
| Add (o : nat)                          (* addTask(o), 162-177 *)
| Remove (i : Z)                         (* removeTask(i) up to the unlock, 179-188 *)
| RemoveDone (o : nat)                   (* isRunning() answered false, 190-194 *)
| Free (o : nat)                         (* delete filter, PipelineManager.cpp 391-414 *)
| Look (w : nat) (ready : nat -> bool)   (* one pass over the queue, 88-113 *)
| Finish (w : nat) (en : list Z)         (* runProcessFrame returned, lock, unsetRunning: 120-124 *)
| Settle (w : nat) (pend : bool).        (* pendingJobs() answered pend; push; unlock: 126-137 *)

Inductive pout :=
| Next (p : pool) (started : option nat)
| UseAfterFree
| NotYet.                                (* the event cannot happen in this state *)

Definition mem (o : nat) (l : list nat) : bool := existsb (Nat.eqb o) l.
(* Model's own: std::list::remove of one object. *)
Fixpoint del (o : nat) (l : list nat) : list nat :=
  match l with [] => [] | x :: t => if o =? x then t else x :: del o t end.

(** WorkersPool::mtx is held across events only by a settling worker. *)
Definition locked (p : pool) : bool :=
  existsb (fun w => match w with Settling _ _ => true | _ => false end) (workers p).

(** TaskQueue::pushBack, 33-39: dedups by identifier (RunnableLess, Runnable.hh). *)
Definition pushBack (q : list nat) (o : nat) : list nat :=
  if existsb (fun x => Z.eqb (idof x) (idof o)) q then q else q ++ [o].

(** TaskQueue::pop, 41-47: removes the front element. *)
Definition pop (q : list nat) : list nat := tl q.

(** The loop 94-110: current/next until a job that is not running is found. *)
Inductive found := Job (o : nat) | Wait | Dead.
(* WorkersPool.cpp 94-110. *)
Fixpoint scan (p : pool) (ready : nat -> bool) (q : list nat) : found :=
  match q with
  | [] => Wait
  | o :: t => if mem o (freed p) then Dead
              else if mem o (flag p) then scan p ready t
              else if ready o then Job o else Wait
  end.

(** The loop 130-135 over enabledJobs. *)
Fixpoint pushAll (m : zmap nat) (q : list nat) (en : list Z) : list nat :=
  match en with
  | [] => q
  | i :: t => pushAll m (match mfind i m with Some o => pushBack q o | None => q end) t
  end.

(* Model's own: the steps above, one at a time. *)
Definition pstep (p : pool) (e : pevent) : pout :=
  match e with
  | Add o =>
      if locked p then NotYet
      else if mem o (freed p) then UseAfterFree
      else if (idof o <? 0)%Z then Next p None
      else match mfind (idof o) (regs p) with
           | Some _ => Next p None
           | None => Next (mkPool (workers p) (pushBack (queue p) o) (mset (idof o) o (regs p))
                             (flag p) (leaving p) (removed p) (freed p)) None
           end
  | Remove i =>
      if locked p then NotYet
      else match mfind i (regs p) with
           | None => Next p None
           | Some o => Next (mkPool (workers p) (queue p) (mdel i (regs p)) (flag p)
                               (o :: leaving p) (removed p) (freed p)) None
           end
  | RemoveDone o =>
      if negb (mem o (leaving p)) then NotYet
      else if mem o (freed p) then UseAfterFree
      else if mem o (flag p) then NotYet
      else Next (mkPool (workers p) (queue p) (regs p) (flag p) (del o (leaving p)) (o :: removed p) (freed p)) None
  | Free o =>
      if mem o (removed p)
      then Next (mkPool (workers p) (queue p) (regs p) (flag p) (leaving p) (removed p) (o :: freed p)) None
      else NotYet
  | Look w ready =>
      if locked p then NotYet
      else match nth_error (workers p) w with
           | Some Idle =>
               match scan p ready (queue p) with
               | Job o => Next (mkPool (upd (workers p) w (Running o)) (pop (queue p)) (regs p) (o :: flag p)
                                  (leaving p) (removed p) (freed p)) (Some o)
               | Wait => Next p None
               | Dead => UseAfterFree
               end
           | _ => NotYet
           end
  | Finish w en =>
      if locked p then NotYet
      else match nth_error (workers p) w with
           | Some (Running o) =>
               if mem o (freed p) then UseAfterFree
               else Next (mkPool (upd (workers p) w (Settling o en)) (queue p) (regs p) (del o (flag p))
                            (leaving p) (removed p) (freed p)) None
           | _ => NotYet
           end
  | Settle w pend =>
      match nth_error (workers p) w with
      | Some (Settling o en) =>
          if mem o (freed p) then UseAfterFree
          else Next (mkPool (upd (workers p) w Idle)
                       (pushAll (regs p) (queue p) (en ++ if pend then [idof o] else []))
                       (regs p) (flag p) (leaving p) (removed p) (freed p)) None
      | _ => NotYet
      end
  end.

(** A history: the events that happened, each with the object it started. *)
Inductive prun (p0 : pool) : pool -> list (pevent * option nat) -> Prop :=
| pr_nil : prun p0 p0 []
| pr_snoc p tr e p' s : prun p0 p tr -> pstep p e = Next p' s -> prun p0 p' (tr ++ [(e, s)]).

(** WorkersPool(threads), 71-81. *)
Definition newPool (n : nat) : pool := mkPool (repeat Idle n) [] [] [] [] [] [].
End Pool.
