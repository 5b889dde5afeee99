(* What a user of the receiver's sessions relies on. *)
From Coq Require Import ZArith List Bool.
From Verif Require Import ZMap JsonModel SessModel.
Import ListNotations.
Local Open Scope list_scope.
Local Open Scope Z_scope.

(* Everything a receiver can have been through, without a crash so far. *)
Definition reachable (r : reg) : Prop := exists ops, run ops reg0 = Some r.

Definition Registered (r : reg) (id : str) : Prop := In id (map fst (sessions r)).
Definition SessionOf (r : reg) (id : str) (s : sess) : Prop := In (id, s) (sessions r).

(* A port is in use when it has a sink; free otherwise. *)
Definition InUse (r : reg) (p : Z) : Prop := mfind p (sinks r) <> None.

(* The sink of the port, if it is in use, is alive and nobody reads it. *)
Definition Quiet (r : reg) (p : Z) : Prop :=
  forall e, mfind p (sinks r) = Some e -> alive e = true /\ connected e = false.

(* A request can name a session to be created. *)
Definition creates (o : op) (id : str) : Prop :=
  match o with
  | AddStreams i _ _ _ => i = id
  | AddUrl i _ => i = id
  | _ => False
  end.

(* A server forgets a session it has not heard of for [t] seconds.  Times are
   in microseconds. *)
Definition InTime (t : Z) (heard : Z -> Prop) : Prop :=
  forall now, 0 <= now -> exists h, heard h /\ h <= now < h + t * 1000000.
(* It hears of the session at time 0.  The n-th request is sent at
   [first + n * next] and arrives [late n] later. *)
Definition heardAt (first next : Z) (late : Z -> Z) (h : Z) : Prop :=
  h = 0 \/ exists n, 0 <= n /\ h = first + n * next + late n.
(* What a request may be late: 5 seconds, or all but one second of a
   shorter timeout. *)
Definition slack (t : Z) : Z := Z.min 5 (t - 1) * 1000000.
