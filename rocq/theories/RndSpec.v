(** What C66 is about: what happens at one input, which inputs hold a frame, which are served. *)
From Verif Require Import Base ZMap TxModel RndModel.
Local Open Scope list_scope.
Local Open Scope Z_scope.

(** The events at the source of input [r]. *)
Definition at_ (r : Z) (e : trace) : list qev := flat_map (fun x => if fst x =? r then [snd x] else []) e.

(** No source keeps a frame of its input's queue. *)
Definition released (t : tx) : Prop := forall r s, mfind r (tsrc t) = Some s -> qframe (sstate s) = None.
(** The network asks input [r] for data: it has asked and not stopped since. *)
Definition playing (r : Z) (t : tx) : Prop := exists s, mfind r (tsrc t) = Some s /\ stopped (sstate s) = false.
(** It is waiting for data of input [r] now. *)
Definition waits (r : Z) (t : tx) : Prop := exists s, mfind r (tsrc t) = Some s /\ awaiting (sstate s) = true.
(** The source of input [r] got an event trigger. *)
Definition triggered (r : Z) (t : tx) : Prop := exists s, mfind r (tsrc t) = Some s /\ strig s = true.

(** The sink of input [r] asks, or stops, during these steps. *)
Definition does (e : ev) (steps : list sstep) : Prop := exists st, In st steps /\ (In e (before st) \/ In e (after st)).
Definition silent (r : Z) (steps : list sstep) : Prop := ~ does (Ask r) steps /\ ~ does (Stop r) steps.

(** Inputs connected in a history. *)
Definition connects (os : list op) : Z := Z.of_nat (length (filter (fun o => match o with Connect _ _ => true | _ => false end) os)).

(** When an input is disconnected, no trigger given to its source is waiting to be handled. *)
Definition settled (os : list op) : Prop := forall a r b e t s,
  os = a ++ Disconnect r :: b -> hrun a newTx = Some (e, t) -> mfind r (tsrc t) = Some s -> ~ In (sobj s) (tpend t).
(** At most one new frame a round. *)
Definition oneByOne (os : list op) : Prop := forall fs steps, In (Round fs steps) os -> (length fs <= 1)%nat.
(** Input [r] is always connected to a stream whose frames are sent as they are. *)
Definition plain (r : Z) (os : list op) : Prop := forall k, In (Connect r k) os -> k = Plain.
