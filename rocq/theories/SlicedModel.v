(** Model of SlicedVideoFrameQueue (src/SlicedVideoFrameQueue.cpp), which stores the
    slices of a picture in the slots of an AVFramedQueue (RingModel).

    Simplifications: a Slice points into the encoder's memory (VideoFrame.cpp
    130-141); the model copies the bytes when setSlice is called, i.e. it assumes the
    encoder does not change them before addFrame. The frame's own buffer holds
    [ssize] bytes (setup, 110-127; bufferMaxLen). *)
From Verif Require Import Base RingIface RingModel SlicedIface.

Section Sliced.
Context {B : Type}.

Inductive sout (A : Type) :=
| SOk (a : A)
| Overflow            (* memcpy past the end of a slot's buffer *)
| Stuck               (* a loop that does not end, or a division by zero *)
| Rejected.           (* createNew returned NULL *)
Arguments SOk {A}. Arguments Overflow {A}. Arguments Stuck {A}. Arguments Rejected {A}.

Record sliced := mkSliced {
  sring : ring (pmeta * list B);
  ssize : nat;                  (* maxSliceSize *)
  sin   : list (list B)         (* inputFrame->pointedSlices[0 .. pointedSliceNum-1] *)
}.

(** MAX_SLICES, src/VideoFrame.hh:32. *)
Definition MAX_SLICES : nat := 16.

(** createNew, 28-46, and setup, 110-127. *)
Definition createSliced (maxFrames maxSliceSize : nat) (w : Z) (ids : list Z) (blank : pmeta * list B) : sout sliced :=
  if (maxFrames =? 0) || (maxSliceSize =? 0) then Rejected
  else SOk (mkSliced (newRing maxFrames w ids blank) maxSliceSize []).

(** SlicedVideoFrame::setSlice, VideoFrame.cpp 130-141. *)
Definition setSlice (s : sliced) (d : list B) : sliced * bool :=
  if MAX_SLICES <=? length (sin s) then (s, false)
  else (mkSliced (sring s) (ssize s) (sin s ++ [d]), true).

(** One round of the loop of pushBackSliceGroup, 129-151; innerGetRear 86-93 and
    innerForceGetRear 95-103 are AVFramedQueue's getRear and forceGetRear on the slots
    (the loop of innerForceGetRear gets [rmax] rounds). *)
Definition pushSlice (size : nat) (m : pmeta) (q : ring (pmeta * list B)) (d : list B) : sout (ring (pmeta * list B)) :=
  let slot := match getRear q with
              | Ok (Some i) => Ok (q, i)
              | Ok None => forceGetRear (rmax q) q
              | DivByZero => DivByZero
              | NoReturn => NoReturn
              end in
  match slot with
  | Ok (q1, i) =>
      if size <? length d then Overflow
      else let q2 := set_slots q1 (upd (rslots q1) i (m, d)) in
           (* innerAddFrame, 105-108 *)
           SOk (set_rear q2 ((rrear q2 + 1) mod rmax q2))
  | _ => Stuck
  end.

(** pushBackSliceGroup, 129-151. *)
Fixpoint pushSlices (size : nat) (m : pmeta) (q : ring (pmeta * list B)) (ds : list (list B)) : sout (ring (pmeta * list B)) :=
  match ds with
  | [] => SOk q
  | d :: t => match pushSlice size m q d with
              | SOk q' => pushSlices size m q' t
              | x => x
              end
  end.

(** getRear 58-65, forceGetRear 81-84, addFrame 67-79 (clear: VideoFrame.cpp 125-128);
    getFront, removeFrame, getElements are inherited from AVFramedQueue. *)
Definition sstep (s : sliced) (r : sreq B) : sout (sliced * sans B) :=
  let q := sring s in
  match r with
  | Offer => match getRear q with
             | Ok x => SOk (s, Yes (match x with Some _ => true | None => false end))
             | _ => Stuck
             end
  | ForceOffer => SOk (s, Yes true)
  | AddSlice d => let (s', b) := setSlice s d in SOk (s', Yes b)
  | Publish m => match pushSlices (ssize s) m q (sin s) with
                 | SOk q' => SOk (mkSliced q' (ssize s) [], Readers (rids q'))
                 | Overflow => Overflow
                 | Stuck => Stuck
                 | Rejected => Rejected
                 end
  | PeekS => match getFront q with
             | Some i => match slot_read q i with
                         | Some f => SOk (s, Piece (Some f))
                         | None => Overflow
                         end
             | None => SOk (s, Piece None)
             end
  | RemoveS => match removeFrame q with
               | Ok (q', w) => SOk (mkSliced q' (ssize s) (sin s), Who w)
               | _ => Stuck
               end
  | CountS => SOk (s, Amount (getElements q))
  | LostS => SOk (s, Amount (rlost q))
  end.

(** Model's own: a history of requests. *)
Fixpoint srun (s : sliced) (rs : list (sreq B)) : sout (sliced * list (sans B)) :=
  match rs with
  | [] => SOk (s, [])
  | r :: t => match sstep s r with
              | SOk (s1, x) => match srun s1 t with
                               | SOk (s2, xs) => SOk (s2, x :: xs)
                               | Overflow => Overflow | Stuck => Stuck | Rejected => Rejected
                               end
              | Overflow => Overflow | Stuck => Stuck | Rejected => Rejected
              end
  end.
End Sliced.
Arguments SOk {A}. Arguments Overflow {A}. Arguments Stuck {A}. Arguments Rejected {A}.
Arguments sliced : clear implicits.
