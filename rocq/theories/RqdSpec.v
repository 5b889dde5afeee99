(** What C107 speaks of. *)
From Verif Require Import Base AnnModel RqdModel.
From Coq Require Import ZArith List Bool.
Import ListNotations.
Local Open Scope list_scope.
Local Open Scope Z_scope.

(** The streams that sessions of a history have on the port [p]. *)
Definition announced (p : Z) (es : list ev) (h : heard) : Prop := exists n l, In (AddS n l) es /\ In (p, h) l.
(** The stream whose data arrive at the port [p]. *)
Definition arrives (w : world) (p : Z) (h : heard) : Prop := get p (sinks w) = Some h.
(** The output is made for the stream [h]: a queue for it, or none if there is no queue for such a stream. *)
Definition madeFor (o : option info) (h : heard) : Prop :=
  match createStreamInfo h with Some i => o = if queueMade i then Some i else None | None => o = None end.
