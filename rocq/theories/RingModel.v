(** Model of the frame queue [AVFramedQueue] (src/AVFramedQueue.cpp) and of the
    parts of its base class [FrameQueue] (src/FrameQueue.hh) it uses.

    A [Frame*] handed out by the queue is represented by the index of the slot in
    [frames[]] (src/AVFramedQueue.hh, member [frames]); the contents of a frame
    are an abstract value of type [V].
    Simplifications: [size_t]/[unsigned] are [nat] (all values stay below
    MAX_FRAMES = 250, [rear + 1] cannot overflow); the buffers are allocated by
    VideoFrameQueue::setup / AudioFrameQueue::setup (144-175, 202-256) and are
    taken to be present (blank); log messages are not modelled. *)
From Verif Require Import Base RingIface.

(** Outcome of a call: a value, or one of the ways the C++ code can go wrong. *)
Inductive outcome (A : Type) :=
| Ok (a : A)
| DivByZero          (* x % 0: undefined behaviour *)
| NoReturn.          (* the loop has not finished within the given fuel *)
Arguments Ok {A}. Arguments DivByZero {A}. Arguments NoReturn {A}.

Section Ring.
Context {V : Type}.

(** src/FrameQueue.hh 222-229 (rear, front, lostBlocs, connectionData) and
    src/AVFramedQueue.hh (max, frames). *)
Record ring := mkRing {
  rmax   : nat;
  rrear  : nat;
  rfront : nat;
  rlost  : nat;
  rwid   : Z;          (* connectionData.wFilterId *)
  rids   : list Z;     (* connectionData.readers[*].rFilterId *)
  rslots : list V
}.

(** Model's own: field updates. *)
Definition set_rear (q : ring) r :=
  mkRing (rmax q) r (rfront q) (rlost q) (rwid q) (rids q) (rslots q).
(** Model's own: field updates. *)
Definition set_front (q : ring) f :=
  mkRing (rmax q) (rrear q) f (rlost q) (rwid q) (rids q) (rslots q).
(** Model's own: field updates. *)
Definition set_lost (q : ring) n :=
  mkRing (rmax q) (rrear q) (rfront q) n (rwid q) (rids q) (rslots q).
(** Model's own: field updates. *)
Definition set_slots (q : ring) s :=
  mkRing (rmax q) (rrear q) (rfront q) (rlost q) (rwid q) (rids q) s.

(** MAX_FRAMES, src/AVFramedQueue.hh:27. *)
Definition MAX_FRAMES : nat := 250.

(** Constructor, src/AVFramedQueue.cpp 29-38, FrameQueue.hh 78-80. *)
Definition newRing (maxFrames : nat) (wid : Z) (ids : list Z) (blank : V) : ring :=
  let m := if MAX_FRAMES <? maxFrames then MAX_FRAMES else maxFrames in
  mkRing m 0 0 0 wid ids (repeat blank m).

(** getRear, src/AVFramedQueue.cpp 47-54. [Ok None] is the NULL pointer. *)
Definition getRear (q : ring) : outcome (option nat) :=
  if rmax q =? 0 then DivByZero
  else if (rrear q + 1) mod rmax q =? rfront q then Ok None
  else Ok (Some (rrear q)).

(** getFront, src/AVFramedQueue.cpp 56-63. *)
Definition getFront (q : ring) : option nat :=
  if rrear q =? rfront q then None else Some (rfront q).

(** addFrame, src/AVFramedQueue.cpp 65-79. Returns the reader filter ids. *)
Definition addFrame (q : ring) : outcome (ring * list Z) :=
  if rmax q =? 0 then DivByZero
  else if (rrear q + 1) mod rmax q =? rfront q then Ok (q, rids q)
  else Ok (set_rear q ((rrear q + 1) mod rmax q), rids q).

(** removeFrame, src/AVFramedQueue.cpp 81-88. *)
Definition removeFrame (q : ring) : outcome (ring * Z) :=
  if rrear q =? rfront q then Ok (q, (-1)%Z)
  else if rmax q =? 0 then DivByZero
  else Ok (set_front q ((rfront q + 1) mod rmax q), rwid q).

(** doFlush, src/AVFramedQueue.cpp 90-93. For max = 0 the code divides by zero. *)
Definition doFlush (q : ring) : ring :=
  set_rear q ((rrear q + (rmax q - 1)) mod rmax q).

(** flush, src/FrameQueue.hh 114-118. *)
Definition flush (q : ring) : ring := doFlush (set_lost q (rlost q + 1)).

(** forceGetRear, src/AVFramedQueue.cpp 95-103: loop until getRear answers. *)
Fixpoint forceGetRear (fuel : nat) (q : ring) : outcome (ring * nat) :=
  match getRear q with
  | Ok (Some s) => Ok (q, s)
  | Ok None =>
      match fuel with
      | O => NoReturn
      | S n => forceGetRear n (flush q)
      end
  | DivByZero => DivByZero
  | NoReturn => NoReturn
  end.

(** forceGetFront, src/AVFramedQueue.cpp 105-108. *)
Definition forceGetFront (q : ring) : outcome nat :=
  if rmax q =? 0 then DivByZero
  else Ok ((rfront q + (rmax q - 1)) mod rmax q).

(** getElements, src/AVFramedQueue.cpp 110-113. *)
Definition getElements (q : ring) : nat :=
  if rrear q <? rfront q then rmax q - rfront q + rrear q else rrear q - rfront q.

(** IEEE binary32 quotient e/m of two positive integers below 2^24 with
    e <= m, rounded to nearest even: the pair (mantissa, sh) stands for
    mantissa / 2^sh. Models the C++ expression [((float) e)/m]. *)
Definition f32_quot (e m : N) : N * N :=
  (let sh0 := 23 + N.log2 m - N.log2 e in
   let sh := if e * 2 ^ sh0 <? m * 2 ^ 23 then sh0 + 1 else sh0 in
   let n := e * 2 ^ sh in
   let q := n / m in
   let r := n mod m in
   let up := (m <? 2 * r) || ((2 * r =? m) && N.odd q) in
   ((if up then q + 1 else q), sh))%N.

(** The binary64 constant 0.9 is 8106479329266893 / 2^53 (FULL_THRESHOLD,
    src/FrameQueue.hh:39). *)
Definition FULL_THRESHOLD_MANT : N := 8106479329266893%N.

(** isFull, src/AVFramedQueue.cpp 115-118: the binary32 quotient is compared
    with the binary64 constant 0.9. *)
Definition isFull (q : ring) : bool :=
  let e := getElements q in
  if e =? 0 then false
  else let (mant, sh) := f32_quot (N.of_nat e) (N.of_nat (rmax q)) in
       (FULL_THRESHOLD_MANT * 2 ^ sh <=? mant * 2 ^ 53)%N.

(** A client program using the queue: the writer side keeps the slot it was
    offered (Writer::getFrame, src/IOInterface.cpp 319-341), the reader side
    keeps the frame it is working on (Reader::frame, 84-108). *)
Record sys := mkSys {
  sq : ring;
  wheld : option nat;   (* slot the writer may write to *)
  rheld : option nat    (* slot the reader is reading *)
}.

(** Model's own: what the reader finds in its frame. *)
Definition slot_read (q : ring) (i : nat) : option V := nth_error (rslots q) i.

(** One client step. [None]: undefined behaviour or a call that does not return. *)
Definition step (s : sys) (o : request V) : option (sys * answer V) :=
  let q := sq s in
  match o with
  | Request =>
      match getRear q with
      | Ok r => Some (mkSys q r (rheld s),
                      Granted (match r with Some _ => true | None => false end))
      | _ => None
      end
  | Force =>
      match forceGetRear (rmax q) q with
      | Ok (q', i) => Some (mkSys q' (Some i) (rheld s), Granted true)
      | _ => None
      end
  | Scribble v =>
      match wheld s with
      | Some i => Some (mkSys (set_slots q (upd (rslots q) i v)) (wheld s) (rheld s), Nothing)
      | None => Some (s, Nothing)
      end
  | Commit v =>
      match wheld s with
      | Some i =>
          match addFrame (set_slots q (upd (rslots q) i v)) with
          | Ok (q', ids) => Some (mkSys q' None (rheld s), Ids ids)
          | _ => None
          end
      | None => Some (s, Nothing)
      end
  | Peek =>
      match getFront q with
      | Some i =>
          match slot_read q i with
          | Some v => Some (mkSys q (wheld s) (Some i), Frame (Some v))
          | None => None
          end
      | None => Some (mkSys q (wheld s) None, Frame None)
      end
  | ReadHeld =>
      match rheld s with
      | Some i =>
          match slot_read q i with
          | Some v => Some (s, Frame (Some v))
          | None => None
          end
      | None => Some (s, Frame None)
      end
  | Remove =>
      match removeFrame q with
      | Ok (q', w) => Some (mkSys q' (wheld s) None, Id w)
      | _ => None
      end
  | Last =>
      match forceGetFront q with
      | Ok i => match slot_read q i with
                | Some v => Some (s, Frame (Some v))
                | None => None
                end
      | _ => None
      end
  | Count => Some (s, Num (getElements q))
  | Lost => Some (s, Num (rlost q))
  end.

(** Model's own: a history of requests, and its start. *)
Fixpoint run (s : sys) (os : list (request V)) : option (sys * list (answer V)) :=
  match os with
  | [] => Some (s, [])
  | o :: t =>
      match step s o with
      | Some (s1, x) =>
          match run s1 t with
          | Some (s2, xs) => Some (s2, x :: xs)
          | None => None
          end
      | None => None
      end
  end.

(** Model's own: a history of requests, and its start. *)
Definition init (maxFrames : nat) (wid : Z) (ids : list Z) (blank : V) : sys :=
  mkSys (newRing maxFrames wid ids blank) None None.

End Ring.
Arguments ring : clear implicits.
Arguments sys : clear implicits.
