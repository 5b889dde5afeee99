(** Independent specification of a frame queue: a bounded list of frames, the
    oldest first. It knows nothing about slots, indices or wrap-around. *)
From Coq Require Import List ZArith Bool Arith.
From Verif Require Import RingIface.
Import ListNotations.

Section Spec.
Context {V : Type}.

Record fifo := mkFifo {
  cap     : nat;        (* greatest number of pending frames *)
  pending : list V;     (* committed, not yet removed; oldest first *)
  last    : V;          (* the frame removed most recently *)
  lost    : nat;        (* frames discarded by forced writes *)
  granted : bool;       (* the writer has a buffer to fill *)
  inhand  : option V;   (* the frame the reader is working on *)
  wname   : Z;          (* identifier of the writing filter *)
  rnames  : list Z      (* identifiers of the reading filters *)
}.

Definition spec_step (s : fifo) (r : request V) : fifo * answer V :=
  match s with mkFifo cap pending last lost granted inhand wname rnames =>
  match r with
  | Request =>
      let b := length pending <? cap in
      (mkFifo cap pending last lost b inhand wname rnames, Granted b)
  | Force =>
      (* a full queue gives up its newest frame *)
      if length pending <? cap
      then (mkFifo cap pending last lost true inhand wname rnames, Granted true)
      else (mkFifo cap (removelast pending) last (lost + 1) true inhand wname rnames, Granted true)
  | Scribble _ => (s, Nothing)
  | Commit v =>
      if granted
      then (mkFifo cap (pending ++ [v]) last lost false inhand wname rnames, Ids rnames)
      else (s, Nothing)
  | Peek => (mkFifo cap pending last lost granted (hd_error pending) wname rnames,
             Frame (hd_error pending))
  | ReadHeld => (s, Frame inhand)
  | Remove =>
      match pending with
      | [] => (mkFifo cap [] last lost granted None wname rnames, Id (-1))
      | v :: t => (mkFifo cap t v lost granted None wname rnames, Id wname)
      end
  | Last => (s, Frame (Some last))
  | Count => (s, Num (length pending))
  | Lost => (s, Num lost)
  end end.

Fixpoint spec_run (s : fifo) (rs : list (request V)) : fifo * list (answer V) :=
  match rs with
  | [] => (s, [])
  | r :: t => let (s1, a) := spec_step s r in
              let (s2, l) := spec_run s1 t in (s2, a :: l)
  end.

Definition spec_init (c : nat) (w : Z) (ids : list Z) (blank : V) : fifo :=
  mkFifo c [] blank 0 false None w ids.

(** Reading a history (requests paired with their answers). *)
Definition history := list (request V * answer V).

(** The frames the writer published, in order. *)
Fixpoint published (h : history) : list V :=
  match h with
  | [] => []
  | (Commit v, Ids _) :: t => v :: published t
  | _ :: t => published t
  end.

(** The frames the reader finished: those it had in hand (by its last Peek since
    the previous Remove) when it called Remove. *)
Fixpoint finished (hand : option V) (h : history) : list V :=
  match h with
  | [] => []
  | (Peek, Frame f) :: t => finished f t
  | (Remove, _) :: t =>
      match hand with Some v => v :: finished None t | None => finished None t end
  | _ :: t => finished hand t
  end.

(** The reader only removes a frame it has in hand. *)
Fixpoint careful (hand : option V) (h : history) : Prop :=
  match h with
  | [] => True
  | (Peek, Frame f) :: t => careful f t
  | (Remove, _) :: t => hand <> None /\ careful None t
  | _ :: t => careful hand t
  end.

(** [l] is obtained from [m] by leaving out some elements. *)
Inductive subseq : list V -> list V -> Prop :=
| sub_nil : subseq [] []
| sub_keep x l m : subseq l m -> subseq (x :: l) (x :: m)
| sub_skip x l m : subseq l m -> subseq l (x :: m).

End Spec.
Arguments fifo : clear implicits.
