(** Vocabulary of the frame queue interface: what a client may ask and what it
    is answered. Shared by the model (RingModel) and the specification (RingSpec);
    contains no behaviour. *)
From Coq Require Import List ZArith.
Import ListNotations.

Inductive request (V : Type) :=
| Request            (* writer: give me a buffer            (Writer::getFrame(false)) *)
| Force              (* writer: give me a buffer, no excuse (Writer::getFrame(true)) *)
| Scribble (v : V)   (* writer: modify the buffer it was given *)
| Commit (v : V)     (* writer: complete the buffer and publish it (addFrame) *)
| Peek               (* reader: get the oldest frame (getFront) *)
| ReadHeld           (* reader: read the frame obtained by Peek (again) *)
| Remove             (* reader: done with the oldest frame (removeFrame) *)
| Last               (* reader: get the last removed frame again (forceGetFront) *)
| Count              (* number of pending frames (getElements) *)
| Lost.              (* number of frames lost (getLostBlocs) *)
Arguments Request {V}. Arguments Force {V}. Arguments Scribble {V}. Arguments Commit {V}.
Arguments Peek {V}. Arguments ReadHeld {V}. Arguments Remove {V}. Arguments Last {V}.
Arguments Count {V}. Arguments Lost {V}.

Inductive answer (V : Type) :=
| Granted (b : bool)
| Ids (l : list Z)
| Frame (f : option V)
| Id (z : Z)
| Num (n : nat)
| Nothing.
Arguments Granted {V}. Arguments Ids {V}. Arguments Frame {V}. Arguments Id {V}.
Arguments Num {V}. Arguments Nothing {V}.
