(* One port of the receiver: the live555 sink which copies received data
   into the frames of an output queue, the filter round which drives it, and
   the life of the sink and of the queue.

   Modelled:
     src/modules/receiver/QueueSink.cpp        lines 29-117
     src/modules/receiver/SourceManager.cpp    lines 128-145 (doProcessFrame),
                    171-176 (removeSession, the part of one port), 204-228
                    (addSink, specificWriterConfig), 262-272
     src/modules/receiver/Handlers.cpp         lines 79-97 (end of a stream)
     src/Filter.cpp  lines 173-217 (demandDestinationFrames, addFrames),
                    286-319, 338-364, 390-404, 526-546, 792-808
     src/IOInterface.cpp  lines 271-303 (connect and disconnect of a writer)

   Simplifications.
   - Ports share nothing but the scheduler, which handles one event per
     round (SourceManager.cpp 140), so the model follows one port and a
     round brings it at most one event.
   - live555 is an oracle: it hands over data only after a request, and it
     truncates them to the size of the buffer given with the request.
   - A queue is seen from the writing side: the frame being filled, by its
     number, and the frames already handed over.  Which slots of the ring
     those are, and what happens when the ring is full, is in RingModel.v.
   - What a frame held before it is written is not modelled: [body] is None
     until data are copied into it.
   - The reader's side of a connection always accepts. *)
From Coq Require Import ZArith List Bool.
From Verif Require Import Bytes.
Import ListNotations.
Open Scope Z_scope.

(* QueueSink.hh: size of the buffer used while nothing is connected *)
Definition DUMMY_SIZE : Z := 200000.

(* A place in a queue: the queue, by number of connection, and the number of
   the frame in it. *)
Definition place := (Z * Z)%type.

(* QueueSink.hh, fields of the sink, and the state of its live555 source: a
   pending request with its buffer ([Some None] is the dummy buffer), or a
   scheduled call of continuePlaying. *)
Record sink := mkSink {
  held : option place;            (* frame *)
  free : bool;                    (* nextFrame *)
  asked : option (option place);  (* pending getNextFrame *)
  task : bool                     (* scheduled staticContinuePlaying *)
}.

(* The entry of SourceManager::sinks for the port. *)
Inductive entry :=
| Absent                (* no entry *)
| Dead                  (* pointer to a sink already closed *)
| Live (s : sink).

(* Frame.hh: the frame being filled *)
Record slot := mkSlot {
  body : option bytes;
  slen : Z;
  stime : Z;
  done : bool           (* consumed *)
}.

(* Model's own: a frame nobody wrote yet. *)
Definition emptySlot : slot := mkSlot None 0 0 false.

(* A connected output: queue number, size of its frames, number of the frame
   being filled, that frame, next sequence number, and whether the reader is
   still there. *)
Record writer := mkWriter {
  wq : Z; wmax : Z; widx : Z; wcur : slot; wseq : Z; wconn : bool
}.

(* A frame handed over to the reader of queue [oq]. *)
Record out := mkOut { oq : Z; obody : option bytes; olen : Z; otime : Z; oseq : Z }.

Record port := mkPort {
  pent : entry;
  pinfo : bool;              (* outputStreamInfos has the port *)
  pw : option writer;
  plimbo : list Z;           (* queues left by the writer, not by the reader *)
  pnext : Z;                 (* number of the next connection *)
  pout : list out            (* everything handed over, oldest first *)
}.

(* Model's own: the error monad. *)
Inductive fault := UseAfterFree | NullDeref | WroteQueued.

(* Model's own: the error monad. *)
Inductive res (A : Type) := Ok (a : A) | Fault (f : fault).
Arguments Ok {A}. Arguments Fault {A}.

(* Model's own: the error monad. *)
Definition bind {A B} (r : res A) (f : A -> res B) : res B :=
  match r with Ok a => f a | Fault e => Fault e end.

(* Model's own: field updates. *)
Definition setEnt (p : port) (e : entry) : port :=
  mkPort e (pinfo p) (pw p) (plimbo p) (pnext p) (pout p).
(* Model's own: field updates. *)
Definition setPw (p : port) (w : option writer) : port :=
  mkPort (pent p) (pinfo p) w (plimbo p) (pnext p) (pout p).
(* Model's own: field updates. *)
Definition setLimbo (p : port) (l : list Z) : port :=
  mkPort (pent p) (pinfo p) (pw p) l (pnext p) (pout p).
(* Model's own: field updates. *)
Definition setCur (w : writer) (s : slot) : writer :=
  mkWriter (wq w) (wmax w) (widx w) s (wseq w) (wconn w).

(* A port before anything uses it. *)
Definition port0 : port := mkPort Absent false None [] 0 [].

(* QueueSink.cpp 104-111: setFrame *)
Definition setFrame (s : sink) (f : place) : sink :=
  if free s then mkSink (Some f) false (asked s) (task s) else s.

(* QueueSink.cpp 46-73: continuePlaying *)
Definition continuePlaying (s : sink) : sink :=
  match held s with
  | None => mkSink None (free s) (Some None) (task s)
  | Some f =>
    if free s then mkSink (held s) (free s) (asked s) true
    else mkSink (held s) (free s) (Some (Some f)) (task s)
  end.

(* A sink just created and started: QueueSink.cpp 29-34, Handlers.cpp 319
   (startPlaying calls continuePlaying). *)
Definition sink0 : sink := continuePlaying (mkSink None true None false).

(* QueueSink.cpp 114-117: disconnect *)
Definition sinkDisconnect (s : sink) : sink :=
  mkSink None (free s) (asked s) (task s).

(* SourceManager.cpp 262-272: specificWriterDelete.  The entry is looked up
   with operator[], which inserts NULL for a missing port. *)
Definition specificWriterDelete (p : port) : res port :=
  if pinfo p then
    match pent p with
    | Absent => Fault NullDeref
    | Dead => Fault UseAfterFree
    | Live s => Ok (setEnt p (Live (sinkDisconnect s)))
    end
  else Ok p.

(* Filter.cpp 310-319: deleteWriter, the writer being there *)
Definition deleteWriter (p : port) : res port :=
  specificWriterDelete (setPw p None).

(* IOInterface.cpp 283-297 (Writer::disconnect), Filter.cpp 390-404 *)
Definition disconnectWriter (p : port) : res port :=
  match pw p with
  | None => Ok p
  | Some w =>
    deleteWriter (if wconn w then setLimbo p (wq w :: plimbo p) else p)
  end.

(* Filter.cpp 338-364: connect, the reader accepting; SourceManager.cpp
   221-228 requires an entry, 230-260 finds the stream of the port. *)
Definition connect (mx : Z) (p : port) : res port :=
  match pw p with
  | Some _ => Ok p
  | None =>
    match pent p with
    | Absent => Ok p
    | _ => Ok (mkPort (pent p) true
                 (Some (mkWriter (pnext p) mx 0 emptySlot 0 true))
                 (plimbo p) (pnext p + 1) (pout p))
    end
  end.

(* SourceManager.cpp 204-219: addSink of a session that starts *)
Definition addSink (p : port) : res port :=
  match pent p with
  | Absent => Ok (setEnt p (Live sink0))
  | _ => Ok p
  end.

(* SourceManager.cpp 171-176: removeSession, the part of one port *)
Definition removePort (p : port) : res port :=
  match pent p with
  | Absent => Ok p
  | Dead => Fault UseAfterFree
  | Live _ => disconnectWriter (setEnt p Absent)
  end.

(* Filter.cpp 182-196: the writer's part of demandDestinationFrames *)
Definition demand (p : port) : res port :=
  match pw p with
  | None => Ok p
  | Some w =>
    if wconn w then
      Ok (setPw p (Some (setCur w
        (mkSlot (body (wcur w)) (slen (wcur w)) (stime (wcur w)) false))))
    else deleteWriter p
  end.

(* SourceManager.cpp 134-138: the sink is offered the frame *)
Definition offer (p : port) : res port :=
  match pw p with
  | None => Ok p
  | Some w =>
    match pent p with
    | Absent => Ok p
    | Dead => Fault UseAfterFree
    | Live s => Ok (setEnt p (Live (setFrame s (wq w, widx w))))
    end
  end.

(* What the scheduler can do for the port in one step. *)
Inductive event :=
| ETask                            (* the scheduled continuePlaying *)
| EData (d : bytes) (t : Z)        (* data for the pending request *)
| EBye.                            (* the sender ends the stream *)

Fixpoint memZ (x : Z) (l : list Z) : bool :=
  match l with [] => false | y :: r => (x =? y) || memZ x r end.

(* The source writes data into the buffer of the request; the result is the
   port and the size reported to afterGettingFrame. *)
Definition receive (p : port) (dst : option place) (d : bytes) : res (port * Z) :=
  match dst with
  | None => Ok (p, Z.min (len d) DUMMY_SIZE)
  | Some (q, k) =>
    match pw p with
    | Some w =>
      if wq w =? q then
        if widx w =? k then
          let n := Z.min (len d) (wmax w) in
          Ok (setPw p (Some (setCur w
            (mkSlot (Some (firstn (Z.to_nat n) d)) (slen (wcur w))
                    (stime (wcur w)) (done (wcur w))))), n)
        else Fault WroteQueued
      else if memZ q (plimbo p) then Ok (p, len d) else Fault UseAfterFree
    | None => if memZ q (plimbo p) then Ok (p, len d) else Fault UseAfterFree
    end
  end.

(* QueueSink.cpp 84-97: afterGettingFrame, the fields of the frame *)
Definition stamp (p : port) (f : option place) (n t : Z) : res port :=
  match f with
  | None => Ok p
  | Some (q, k) =>
    match pw p with
    | Some w =>
      if wq w =? q then
        if widx w =? k then
          Ok (setPw p (Some (setCur w (mkSlot (body (wcur w)) n t true))))
        else Fault WroteQueued
      else Fault UseAfterFree
    | None => Fault UseAfterFree
    end
  end.

(* QueueSink.cpp 84-97. *)
Definition afterGetting (s : sink) : sink :=
  mkSink (held s) (match held s with Some _ => true | None => free s end)
         None true.

(* One step of the scheduler, and the data it handed over, if any. *)
Definition singleStep (ev : option event) (p : port) : res (port * option (bytes * Z)) :=
  match pent p, ev with
  | Live s, Some ETask =>
    if task s then
      Ok (setEnt p (Live (continuePlaying
            (mkSink (held s) (free s) (asked s) false))), None)
    else Ok (p, None)
  | Live s, Some (EData d t) =>
    match asked s with
    | None => Ok (p, None)
    | Some dst =>
      bind (receive p dst d) (fun '(p1, n) =>
      bind (stamp p1 (held s) n t) (fun p2 =>
      Ok (setEnt p2 (Live (afterGetting s)), Some (d, t))))
    end
  | Live s, Some EBye => Ok (setEnt p Dead, None)
  | _, _ => Ok (p, None)
  end.

(* Filter.cpp 800-805 and 206-214: number the frame and add it *)
Definition addFrame (p : port) : port :=
  match pw p with
  | Some w =>
    if done (wcur w) then
      mkPort (pent p) (pinfo p)
        (Some (mkWriter (wq w) (wmax w) (widx w + 1) emptySlot (wseq w + 1) (wconn w)))
        (plimbo p) (pnext p)
        (pout p ++ [mkOut (wq w) (body (wcur w)) (slen (wcur w)) (stime (wcur w)) (wseq w)])
    else p
  | None => p
  end.

(* Filter.cpp 526-546: one round *)
Definition round (ev : option event) (p : port) : res (port * option (bytes * Z)) :=
  bind (demand p) (fun p1 =>
  bind (offer p1) (fun p2 =>
  bind (singleStep ev p2) (fun '(p3, g) =>
  Ok (addFrame p3, g)))).

Inductive op :=
| OAdd                       (* a session with this port starts *)
| ORemove                    (* that session is removed *)
| OConnect (mx : Z)          (* an output with frames of mx bytes is connected *)
| ODisc                      (* the output is disconnected *)
| OLeave                     (* the reader of the current output goes *)
| OLeaveOld (q : Z)          (* the reader of an old output goes *)
| ORound (ev : option event).

(* Model's own: a history of the port. *)
Definition dropZ (x : Z) (l : list Z) : list Z :=
  filter (fun y => negb (x =? y)) l.

(* Model's own: a history of the port. *)
Definition plain (r : res port) : res (port * option (bytes * Z)) :=
  bind r (fun p => Ok (p, None)).

(* Model's own: a history of the port. *)
Definition step (o : op) (p : port) : res (port * option (bytes * Z)) :=
  match o with
  | OAdd => plain (addSink p)
  | ORemove => plain (removePort p)
  | OConnect mx => plain (connect mx p)
  | ODisc => plain (disconnectWriter p)
  | OLeave =>
    match pw p with
    | Some w => Ok (setPw p (Some (mkWriter (wq w) (wmax w) (widx w) (wcur w) (wseq w) false)), None)
    | None => Ok (p, None)
    end
  | OLeaveOld q => Ok (setLimbo p (dropZ q (plimbo p)), None)
  | ORound ev => round ev p
  end.

(* A history: the port and the data the source handed over, in order. *)
Fixpoint run (ops : list op) (p : port) : res (port * list (bytes * Z)) :=
  match ops with
  | [] => Ok (p, [])
  | o :: r =>
    bind (step o p) (fun '(p1, g) =>
    bind (run r p1) (fun '(p2, l) =>
    Ok (p2, match g with Some x => x :: l | None => l end)))
  end.
