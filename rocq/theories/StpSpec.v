(** What stopping the pool has to do (C103), said of what is seen of it. *)
From Verif Require Import Base StpModel.
Local Open Scope nat_scope.

(** How many rounds of jobs were begun, and how many finished, by worker [i]. *)
Definition begun (i : nat) (es : list event) : nat := length (filter (fun e => match e with Begin j => j =? i | _ => false end) es).
Definition finished (i : nat) (es : list event) : nat := length (filter (fun e => match e with Finish j => j =? i | _ => false end) es).
(** By all. *)
Definition begins (es : list event) : nat := length (filter (fun e => match e with Begin _ => true | _ => false end) es).
(** stop() was called, or has returned. *)
Definition asked (es : list event) : Prop := In Stop es.
Definition returned (es : list event) : Prop := In Return es.
(** No thread can do anything. *)
Definition still (s : pool) : Prop := forall e s', ~ step s e s'.
(** All workers have ended. *)
Definition allEnded (s : pool) : Prop := Forall (fun x => x = Ended) (wk s).
