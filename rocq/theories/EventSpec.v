(** Reading a history of a filter's commands. *)
From Verif Require Import Base EventModel.

(** Commands sent, and commands taken off the queue (run or rejected), in order. *)
Definition sent (tr : list (eop * eans)) : list event :=
  flat_map (fun x => match x with (Push e, _) => [e] | _ => [] end) tr.
Definition taken (tr : list (eop * eans)) : list event :=
  flat_map (fun x => match snd x with Executed e | Dropped e => [e] | _ => [] end) tr.
Definition ran (tr : list (eop * eans)) : list event :=
  flat_map (fun x => match snd x with Executed e => [e] | _ => [] end) tr.

(** Timestamps never decrease along the list. *)
Fixpoint by_time (l : list event) : Prop :=
  match l with
  | a :: (b :: _) as t => (estamp a <= estamp b)%Z /\ by_time t
  | _ => True
  end.
