(* What a user expects of a receiving port, without reference to the sink's
   fields. *)
From Coq Require Import ZArith List Bool.
From Verif Require Import Bytes RcvModel.
Import ListNotations.
Open Scope Z_scope.

(* The frames handed over to the reader of connection [q]. *)
Definition handed (q : Z) (p : port) : list out :=
  filter (fun o => oq o =? q) (pout p).

(* What should reach the reader of connection [q], whose frames hold [mx]
   bytes, for the data [got] received since then: one frame each, in order,
   numbered from [n]. *)
Fixpoint expected (q mx n : Z) (got : list (bytes * Z)) : list out :=
  match got with
  | [] => []
  | (d, t) :: r =>
    mkOut q (Some (firstn (Z.to_nat (Z.min (len d) mx)) d)) (Z.min (len d) mx) t n
    :: expected q mx (n + 1) r
  end.

(* What does reach it if the first data had been requested before the
   connection: the first frame has the length and time of the data, but
   nothing was copied into it. *)
Definition expectedLate (q mx : Z) (got : list (bytes * Z)) : list out :=
  match got with
  | [] => []
  | (d, t) :: r =>
    mkOut q None (Z.min (len d) DUMMY_SIZE) t 0 :: expected q mx 1 r
  end.

(* Rounds in which the sender does not end the stream. *)
Definition rounds (ops : list op) : Prop :=
  Forall (fun o => exists ev, o = ORound ev /\ ev <> Some EBye) ops.

(* The port is receiving, nothing is connected, and the sink will accept a
   frame. *)
Definition idle (p : port) : Prop :=
  exists s, pent p = Live s /\ pw p = None /\ held s = None /\ free s = true.

(* A request of data is pending, into no frame of any output. *)
Definition requested (p : port) : Prop :=
  exists s, pent p = Live s /\ asked s = Some None.

(* A request into a frame of connection [q] is pending. *)
Definition filling (q : Z) (p : port) : Prop :=
  exists s k, pent p = Live s /\ asked s = Some (Some (q, k)).

(* Operation [o] in state [p] frees the queue of connection [q]. *)
Definition frees (q : Z) (o : op) (p : port) : Prop :=
  match o with
  | OLeaveOld q' => q' = q
  | ODisc | ORound _ => exists w, pw p = Some w /\ wq w = q /\ wconn w = false
  | _ => False
  end.

(* The uses of a port which the code supports: the sender does not end the
   stream, a session is not removed while connected, and no queue is freed
   while data for it are awaited. *)
Definition supported (o : op) (p : port) : Prop :=
  o <> ORound (Some EBye) /\
  (o = ORemove -> pw p = None) /\
  (forall q, frees q o p -> ~ filling q p).

Fixpoint supportedAll (ops : list op) (p : port) : Prop :=
  match ops with
  | [] => True
  | o :: r => supported o p /\
    match step o p with Ok (p1, _) => supportedAll r p1 | Fault _ => True end
  end.

(* The states a supported history leads to. *)
Definition reachable (p : port) : Prop :=
  exists ops l, supportedAll ops port0 /\ run ops port0 = Ok (p, l).

(* The operations that leave the session of the port in place. *)
Definition keepsSession (o : op) : Prop := o <> OAdd /\ o <> ORemove.
