(** Life time of the queue object shared by a [Writer] and a [Reader]
    (src/IOInterface.cpp), at the granularity of single accesses to the queue.

    One side is the Writer object of the producing filter, the other the Reader
    object of the consuming filter. The operations of one side are serialised
    (BaseFilter::mtx, and Reader::lck); the two sides run in different threads.
    Frame contents, indices and reader lists are not modelled here. *)
From Verif Require Import Base.

(* Model's own: which end of the queue. *)
Inductive side := Wr | Rd.

(** Where an end is inside disconnect (Writer 283-297, Reader::disconnectQueue 43-58). *)
Inductive dpc :=
| DNo                (* not disconnecting *)
| DTrue              (* loaded connected = true, will store false *)
| DFalse             (* loaded connected = false, will delete *)
| DNull.             (* stored or deleted, will set its pointer to NULL *)

Record endp := mkEnd {
  eptr  : bool;      (* [queue] is not NULL *)
  echk  : bool;      (* the last isConnected() of this end answered true *)
  eheld : bool;      (* its filter works on a Frame that lives in the queue *)
  edpc  : dpc
}.

Record life := mkLife {
  alive : bool;      (* the queue object has not been destroyed *)
  dels  : nat;       (* how many times it was destroyed *)
  conn  : bool;      (* FrameQueue::connected *)
  cpend : bool;      (* Writer::connect has called setConnection but not setConnected(true) yet *)
  ew    : endp;
  er    : endp
}.

Inductive levent :=
| Finish             (* Writer::connect 279: queue->setConnected(true) *)
| Check (s : side)   (* isConnected (305-312, 214-221), and the test in getFrame (74, 323) *)
| Acquire (s : side) (* getRear/getFront/forceGetRear (85, 328-332): the filter gets a Frame *)
| Touch (s : side)   (* the filter reads or writes the Frame it got *)
| Release (s : side) (* addFrame/removeFrame (337-340, 134) and the end of processing *)
| DiscLoad (s : side)  (* disconnect: the test queue->isConnected() *)
| DiscAct (s : side)   (* disconnect: setConnected(false) or delete queue *)
| DiscNull (s : side). (* disconnect: queue = NULL *)

Inductive lout :=
| Fine (l : life)
| UseAfterFree
| DoubleFree
| Disabled.          (* the event is not the next instruction of that end *)

Definition getE (l : life) (s : side) := match s with Wr => ew l | Rd => er l end.
(* Model's own: a field update. *)
Definition setE (l : life) (s : side) (e : endp) :=
  match s with
  | Wr => mkLife (alive l) (dels l) (conn l) (cpend l) e (er l)
  | Rd => mkLife (alive l) (dels l) (conn l) (cpend l) (ew l) e
  end.

(* Model's own: the accesses above, one at a time. *)
Definition lstep (l : life) (v : levent) : lout :=
  match v with
  | Finish =>
      if cpend l then
        if alive l then Fine (mkLife (alive l) (dels l) true false (ew l) (er l))
        else UseAfterFree
      else Disabled
  | Check s =>
      let e := getE l s in
      match edpc e with
      | DNo =>
          if eptr e then
            if alive l then Fine (setE l s (mkEnd true (conn l) (eheld e) DNo)) else UseAfterFree
          else Fine (setE l s (mkEnd false false (eheld e) DNo))
      | _ => Disabled
      end
  | Acquire s =>
      let e := getE l s in
      match edpc e with
      | DNo => if eptr e && echk e then
                 if alive l then Fine (setE l s (mkEnd true true true DNo)) else UseAfterFree
               else Disabled
      | _ => Disabled
      end
  | Touch s =>
      if eheld (getE l s) then if alive l then Fine l else UseAfterFree else Disabled
  | Release s =>
      let e := getE l s in
      if eheld e then
        if eptr e then
          if alive l then Fine (setE l s (mkEnd true (echk e) false (edpc e))) else UseAfterFree
        else Fine (setE l s (mkEnd false (echk e) false (edpc e)))
      else Disabled
  | DiscLoad s =>
      let e := getE l s in
      match edpc e with
      | DNo => if eptr e then
                 if alive l then Fine (setE l s (mkEnd true (echk e) (eheld e) (if conn l then DTrue else DFalse)))
                 else UseAfterFree
               else Disabled
      | _ => Disabled
      end
  | DiscAct s =>
      let e := getE l s in
      match edpc e with
      | DTrue => if alive l
                 then Fine (setE (mkLife (alive l) (dels l) false (cpend l) (ew l) (er l)) s
                                 (mkEnd true (echk e) (eheld e) DNull))
                 else UseAfterFree
      | DFalse => if alive l
                  then Fine (setE (mkLife false (dels l + 1) (conn l) (cpend l) (ew l) (er l)) s
                                  (mkEnd true (echk e) (eheld e) DNull))
                  else DoubleFree
      | _ => Disabled
      end
  | DiscNull s =>
      let e := getE l s in
      match edpc e with
      | DNull => Fine (setE l s (mkEnd false false (eheld e) DNo))
      | _ => Disabled
      end
  end.

(** A run; events that are not enabled are skipped. *)
Fixpoint lrun (l : life) (vs : list levent) : lout :=
  match vs with
  | [] => Fine l
  | v :: t => match lstep l v with
              | Fine l' => lrun l' t
              | Disabled => lrun l t
              | x => x
              end
  end.

(** After Filter::connect (src/Filter.cpp 321-364) returned. *)
Definition connectedQueue : life :=
  mkLife true 0 true false (mkEnd true false false DNo) (mkEnd true false false DNo).

(** Between [reader->setConnection(queue)] and [queue->setConnected(true)]
    (Writer::connect, 278-279). *)
Definition connectingQueue : life :=
  mkLife true 0 false true (mkEnd true false false DNo) (mkEnd true false false DNo).
