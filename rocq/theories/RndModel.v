(** Model of a round of the transmitter: SinkManager::doProcessFrame, src/modules/transmitter/SinkManager.cpp
    133-167, over the sources of all its inputs. A single source is that of TxModel ([qstep], QueueSource.cpp).

    live555 is represented as follows. SingleStep runs what the network sinks do (they ask sources for data or
    stop asking), handles one of the pending event triggers, if there is any, and runs what the sinks do then;
    which trigger it picks and what the sinks do is given from outside. A scheduler has 32 event triggers
    (MAX_NUM_EVENT_TRIGGERS); createEventTrigger answers 0 when they are used up, and triggering 0 has no
    effect. Nothing in the repository deletes a trigger. *)
From Verif Require Import Base ZMap TxModel.
Local Open Scope list_scope.
Local Open Scope Z_scope.

(** An input's source, QueueSource.cpp 10-17: [strig], whether it got an event trigger. *)
Record source := mkSrc { sobj : Z; skind : kind; strig : bool; sstate : qsource }.
(** Model's own: field updates, the start, and the trace. *)
Definition withState (s : source) (q : qsource) : source := mkSrc (sobj s) (skind s) (strig s) q.
(** [tsrc]: the map [sources], by input; [tpend]: the source objects given to triggers that have not been handled
    yet; [tfreed]: the source objects destroyed; [tused]: event triggers in use; [tnext]: the next object. *)
Record tx := mkTx { tsrc : zmap source; tpend : list Z; tfreed : list Z; tused : Z; tnext : Z }.
(** Model's own: field updates, the start, and the trace. *)
Definition newTx : tx := mkTx [] [] [] 0 1.
(** Model's own: field updates, the start, and the trace. *)
Definition withSrc (t : tx) (m : zmap source) : tx := mkTx m (tpend t) (tfreed t) (tused t) (tnext t).

(** What happens at the source of each input. *)
Definition trace := list (Z * qev).
(** Model's own: field updates, the start, and the trace. *)
Definition tag (r : Z) (e : list qev) : trace := map (pair r) e.

(** createVideoQueueSource, createAudioQueueSource 427-460, and the constructor QueueSource.cpp 10-17. *)
Definition MAX_TRIGGERS : Z := 32.
(** SinkManager.cpp 427-460, QueueSource.cpp 10-17. *)
Definition addSource (r : Z) (k : kind) (t : tx) : tx :=
  let got := tused t <? MAX_TRIGGERS in
  mkTx (mset r (mkSrc (tnext t) k got newQ) (tsrc t)) (tpend t) (tfreed t)
       (if got then tused t + 1 else tused t) (tnext t + 1).
(** The source of a disconnected input is closed: specificReaderDelete 124-127, if the input was in use. *)
Definition closeSource (r : Z) (t : tx) : tx :=
  match mfind r (tsrc t) with
  | None => t
  | Some s => mkTx (mdel r (tsrc t)) (tpend t) (sobj s :: tfreed t) (tused t) (tnext t)
  end.

(** One operation on the source of input [r]. *)
Definition atSource (r : Z) (o : qop) (t : tx) : trace * tx :=
  match mfind r (tsrc t) with
  | None => ([], t)
  | Some s => let '(e, q) := qstep (skind s) o (sstate s) in (tag r e, withSrc t (mset r (withState s q) (tsrc t)))
  end.

(** What a sink does: it asks for the next frame (doGetNextFrame) or stops (doStopGettingFrames). *)
Inductive ev := Ask (r : Z) | Stop (r : Z).
(** Model's own: what sinks (live555) do. *)
Definition sinkDoes (e : ev) (t : tx) : trace * tx :=
  match e with Ask r => atSource r QAsk t | Stop r => atSource r QStop t end.
(** Model's own: what sinks (live555) do. *)
Fixpoint sinksDo (es : list ev) (t : tx) : trace * tx :=
  match es with
  | [] => ([], t)
  | e :: r => let '(a, t) := sinkDoes e t in let '(b, t) := sinksDo r t in (a ++ b, t)
  end.

(** The input whose source is the object [o]. *)
Fixpoint inputOf (o : Z) (m : zmap source) : option Z :=
  match m with [] => None | (r, s) :: m => if sobj s =? o then Some r else inputOf o m end.
(** The handler of a trigger: deliverFrame0, QueueSource.cpp 35-37, on the object given to the trigger. None: the
    object has been destroyed. An object that is in no map any more but has not been destroyed holds no frame, so
    nothing happens. *)
Definition handle (o : Z) (t : tx) : option (trace * tx) :=
  if existsb (Z.eqb o) (tfreed t) then None
  else match inputOf o (tsrc t) with None => Some ([], t) | Some r => Some (atSource r QTrigger t) end.

(** SingleStep. *)
Record sstep := mkStep { before : list ev; pick : nat; after : list ev }.
(** BasicTaskScheduler::SingleStep (live555): one of the pending triggers is handled. *)
Definition picked (n : nat) (l : list Z) : option (Z * list Z) :=
  match l with
  | [] => None
  | h :: _ => let i := Nat.modulo n (length l) in Some (nth i l h, firstn i l ++ skipn (S i) l)
  end.
(** BasicTaskScheduler::SingleStep (live555): one of the pending triggers is handled. *)
Definition singleStep (st : sstep) (t : tx) : option (trace * tx) :=
  let '(a, t) := sinksDo (before st) t in
  match match picked (pick st) (tpend t) with
        | None => Some ([], t)
        | Some (o, rest) => handle o (mkTx (tsrc t) rest (tfreed t) (tused t) (tnext t))
        end with
  | None => None
  | Some (b, t) => let '(c, t) := sinksDo (after st) t in Some (a ++ b ++ c, t)
  end.

(** signalNewFrameData, QueueSource.cpp 87-95. *)
Definition signal (s : source) (t : tx) : tx :=
  if strig s && negb (existsb (Z.eqb (sobj s)) (tpend t))
  then mkTx (tsrc t) (tpend t ++ [sobj s]) (tfreed t) (tused t) (tnext t) else t.
(** The first loop, 141-148: the new frames, each with its input, in the order of the inputs. Answers how many
    were taken. *)
Fixpoint hand (fs : list (Z * Z)) (t : tx) : trace * Z * tx :=
  match fs with
  | [] => ([], 0, t)
  | (r, f) :: fs =>
      match mfind r (tsrc t) with
      | Some s =>
          match qframe (sstate s) with
          | None => let '(a, t) := atSource r (QSet f) t in
                    let '(b, n, t) := hand fs (signal s t) in (a ++ b, n + 1, t)
          | Some _ => hand fs t
          end
      | None => hand fs t
      end
  end.
(** gotFrame of every source, 159-163. *)
Fixpoint collectAll (m : zmap source) : trace * zmap source :=
  match m with
  | [] => ([], [])
  | (r, s) :: m =>
      let '(e, q) := qstep (skind s) QGot (sstate s) in
      let '(b, m) := collectAll m in (tag r e ++ b, (r, withState s q) :: m)
  end.

(** [Ended]: doProcessFrame returned this; [Waiting]: the steps given are used up and it has not; [Dead]: use of a
    destroyed source. *)
Inductive result := Ended (ok : bool) (e : trace) (t : tx) | Waiting (e : trace) (t : tx) | Dead.
(** Model's own: a history of the transmitter. *)
Definition precede (a : trace) (r : result) : result :=
  match r with Ended ok e t => Ended ok (a ++ e) t | Waiting e t => Waiting (a ++ e) t | Dead => Dead end.
(** The second loop, 157-164, [p] being pFrames. *)
Fixpoint loop (steps : list sstep) (p : Z) (t : tx) : result :=
  if p <=? 0 then Ended true [] t
  else match steps with
       | [] => Waiting [] t
       | st :: steps =>
           match singleStep st t with
           | None => Dead
           | Some (a, t) =>
               let '(b, m) := collectAll (tsrc t) in
               precede (a ++ b) (loop steps (p - Z.of_nat (length b)) (withSrc t m))
           end
       end.
(** doProcessFrame 133-167. *)
Definition doProcessFrame (fs : list (Z * Z)) (steps : list sstep) (t : tx) : result :=
  let '(a, p, t) := hand fs t in
  if p =? 0 then
    match steps with
    | [] => Waiting a t
    | st :: _ => match singleStep st t with None => Dead | Some (b, t) => Ended false (a ++ b) t end
    end
  else precede a (loop steps p t).

(** The history of a transmitter: inputs connected, inputs that were in use disconnected, rounds. None: it died or
    a round has not ended. *)
Inductive op := Connect (r : Z) (k : kind) | Disconnect (r : Z) | Round (fs : list (Z * Z)) (steps : list sstep).
(** Model's own: a history of the transmitter. *)
Definition hstep (o : op) (t : tx) : result :=
  match o with
  | Connect r k => Ended true [] (addSource r k t)
  | Disconnect r => Ended true [] (closeSource r t)
  | Round fs steps => doProcessFrame fs steps t
  end.
(** Model's own: a history of the transmitter. *)
Fixpoint hrun (os : list op) (t : tx) : option (trace * tx) :=
  match os with
  | [] => Some ([], t)
  | o :: os =>
      match hstep o t with
      | Ended _ a t => match hrun os t with Some (b, t) => Some (a ++ b, t) | None => None end
      | _ => None
      end
  end.
