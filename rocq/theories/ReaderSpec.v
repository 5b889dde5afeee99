(** Vocabulary to talk about histories of a shared reader. *)
From Verif Require Import Base ZMap ReaderModel.

Section Spec.
Context {V : Type}.
Notation trace := (list (rop V * rans V)).

(** The frames that arrived. *)
Definition arrived (tr : trace) : list V :=
  flat_map (fun p => match p with (Arrive v, _) => [v] | _ => [] end) tr.

(** The frames filter [f] was given flagged as new. *)
Definition seen (f : Z) (tr : trace) : list V :=
  flat_map (fun p => match p with (Get g, Got (Some v) true) => if (g =? f)%Z then [v] else [] | _ => [] end) tr.

(** How many frames filter [f] released. *)
Definition released (f : Z) (tr : trace) : nat :=
  length (filter (fun p => match p with (Release g, _) => (g =? f)%Z | _ => false end) tr).

(** How many frames left the queue. *)
Definition gone (tr : trace) : nat :=
  length (filter (fun p => match p with (Release _, Removed true) => true | _ => false end) tr).

(** Filters behave as BaseFilter::processFrame does: a filter releases only frames
    it was given as new, once each (src/Filter.cpp 501-546, removeFrames(newFrames)). *)
Definition proper (tr : trace) : Prop :=
  forall p f x q, tr = p ++ (Release f, x) :: q -> released f p < length (seen f p).

(** The set of sharing filters is fixed to [fs] from the start. *)
Definition fixed (tr : trace) : Prop :=
  forall o x, In (o, x) tr -> match o with Join _ | Leave _ => False | _ => True end.
End Spec.
