(** Model of one writer thread and one reader thread using the same
    [AVFramedQueue] without locks: Writer::getFrame / Writer::addFrame
    (src/IOInterface.cpp 319-357) on one side, Reader::getFrame /
    Reader::removeFrame (70-138) on the other, at the granularity of single
    loads and stores of [rear], [front] and of the words of the frame buffers
    (src/AVFramedQueue.cpp 47-103).

    A frame is a list of [K] words, written and read one word at a time, so a
    half-written frame is visible in the model.
    Simplification: memory is sequentially consistent. The C++ members are plain
    [size_t], so the language gives no guarantee at all for unsynchronised
    access; the theorems say what the algorithm guarantees once loads and stores
    are atomic and ordered. *)
From Verif Require Import Base RingIface RingModel.

Section Spsc.
Context {V : Type}.
Notation frame := (list V).

(** Where the writer thread is, with its local copies. *)
Inductive wpc :=
| WIdle
| WChk (r : nat)               (* getRear (47-54): has loaded rear, will load front *)
| WHave (i : nat)              (* was given slot i *)
| WWriting (i : nat) (f : frame) (k : nat)   (* k words of f are in slot i *)
| WDone (f : frame)            (* buffer complete, addFrame not called yet *)
| WAddChk (f : frame) (r : nat)    (* addFrame (73): loaded rear, will load front *)
| WAddSt (f : frame) (r : nat)     (* addFrame (76): will store rear *)
| WFlush (r : nat).            (* doFlush (92): loaded rear, will store it *)

(** Where the reader thread is. *)
Inductive rpc :=
| RIdle
| RChk (r : nat)               (* getFront (58): loaded rear, will load front *)
| RHave (i : nat)              (* was given slot i *)
| RReading (i : nat) (acc : frame)  (* has copied the words acc *)
| RRead (f : frame)            (* copied the whole frame *)
| RRmChk (f : frame) (r : nat) (* removeFrame (83): loaded rear, will load front *)
| RRmSt (f : frame).           (* removeFrame (86): will store front *)

Record st := mkSt {
  mem : ring frame;            (* shared memory *)
  wp  : wpc;
  rp  : rpc;
  pub : list frame;            (* ghost: frames published so far *)
  got : list frame             (* ghost: frames read and removed so far *)
}.

(** Scheduler choices: which thread moves, and the choices its program makes. *)
Inductive ev :=
| W (f : frame)    (* the writer makes its next step; f is what it writes if it starts a frame *)
| WForce           (* as W, but if getRear fails the writer calls forceGetRear *)
| WSkip            (* the writer gives up the slot without publishing *)
| R                (* the reader makes its next step *)
| RSkip.           (* the reader keeps the frame in the queue and starts over *)

Variable K : nat.   (* words per frame *)

Definition setmem s m := mkSt m (wp s) (rp s) (pub s) (got s).
(* Model's own: field updates. *)
Definition setwp s p := mkSt (mem s) p (rp s) (pub s) (got s).
(* Model's own: field updates. *)
Definition setrp s p := mkSt (mem s) (wp s) p (pub s) (got s).

(** One step of the writer thread. [None]: the step is not possible. *)
Definition wstep (s : st) (f : frame) (force : bool) : option st :=
  let q := mem s in
  match wp s with
  | WIdle => Some (setwp s (WChk (rrear q)))
  | WChk r =>
      if (r + 1) mod rmax q =? rfront q
      then if force then Some (setwp s (WFlush (rrear q))) else Some (setwp s WIdle)
      else Some (setwp s (WHave r))
  | WFlush r =>
      (* flush: lostBlocs++, rear = (rear + (max - 1)) % max; then getRear again *)
      Some (setwp (setmem s (set_lost (set_rear q ((r + (rmax q - 1)) mod rmax q)) (rlost q + 1)))
                  WIdle)
  | WHave i =>
      if length f =? K then Some (setwp s (WWriting i f 0)) else None
  | WWriting i g k =>
      match nth_error g k with
      | Some w =>
          match nth_error (rslots q) i with
          | Some old => Some (setwp (setmem s (set_slots q (upd (rslots q) i (upd old k w))))
                                    (WWriting i g (k + 1)))
          | None => None
          end
      | None => Some (setwp s (WDone g))
      end
  | WDone g => Some (setwp s (WAddChk g (rrear q)))
  | WAddChk g r =>
      if (r + 1) mod rmax q =? rfront q then Some (setwp s WIdle)
      else Some (setwp s (WAddSt g r))
  | WAddSt g r =>
      Some (mkSt (set_rear q ((r + 1) mod rmax q)) WIdle (rp s) (pub s ++ [g]) (got s))
  end.

(** One step of the reader thread. *)
Definition rstep (s : st) : option st :=
  let q := mem s in
  match rp s with
  | RIdle => Some (setrp s (RChk (rrear q)))
  | RChk r => if r =? rfront q then Some (setrp s RIdle) else Some (setrp s (RHave (rfront q)))
  | RHave i => Some (setrp s (RReading i []))
  | RReading i acc =>
      match nth_error (rslots q) i with
      | Some g =>
          match nth_error g (length acc) with
          | Some w => Some (setrp s (RReading i (acc ++ [w])))
          | None => Some (setrp s (RRead acc))
          end
      | None => None
      end
  | RRead f => Some (setrp s (RRmChk f (rrear q)))
  | RRmChk f r => if r =? rfront q then Some (setrp s RIdle) else Some (setrp s (RRmSt f))
  | RRmSt f =>
      Some (mkSt (set_front q ((rfront q + 1) mod rmax q)) (wp s) RIdle (pub s) (got s ++ [f]))
  end.

(* Model's own: an interleaving of the two threads, and its start. *)
Definition sstep (s : st) (e : ev) : option st :=
  match e with
  | W f => wstep s f false
  | WForce => wstep s [] true
  | WSkip => match wp s with WHave _ | WWriting _ _ _ | WDone _ => Some (setwp s WIdle) | _ => None end
  | R => rstep s
  | RSkip => match rp s with RHave _ | RReading _ _ | RRead _ => Some (setrp s RIdle) | _ => None end
  end.

(* Model's own: an interleaving of the two threads, and its start. *)
Fixpoint srun (s : st) (es : list ev) : option st :=
  match es with
  | [] => Some s
  | e :: t => match sstep s e with Some s' => srun s' t | None => None end
  end.

(* Model's own: an interleaving of the two threads, and its start. *)
Definition sinit (n : nat) (w : Z) (ids : list Z) (blank : frame) : st :=
  mkSt (newRing n w ids blank) WIdle RIdle [] [].

End Spsc.
Arguments st : clear implicits.
Arguments ev : clear implicits.
