(* What the reported statistics should be. *)
From Coq Require Import ZArith QArith List Bool.
From Verif Require Import StatModel.
Import ListNotations.
Local Open Scope list_scope.
Local Open Scope Z_scope.

(* m is the smallest (greatest) member of the list. *)
Definition Smallest (m : Q) (l : list Q) : Prop := Exists (Qeq m) l /\ Forall (Qle m) l.
Definition Greatest (m : Q) (l : list Q) : Prop := Exists (Qeq m) l /\ Forall (fun x => Qle x m) l.
Definition SmallestZ (m : Z) (l : list Z) : Prop := In m l /\ Forall (Z.le m) l.
Definition GreatestZ (m : Z) (l : list Z) : Prop := In m l /\ Forall (fun x => x <= m) l.

(* What really happened up to a moment: the time in microseconds, and since
   the start the kilobytes and packets received and the packets expected. *)
Record truth := mkTr { tTime : Z; tBytes : Q; tRecv : Z; tExp : Z; tJitter : Z }.
(* How live555 and the clock show it. *)
Definition shown (t : truth) : look :=
  mkL (tTime t / 1000000, tTime t mod 1000000) (tBytes t) (tRecv t mod U32) (tExp t mod U32) (tJitter t).

(* From one moment to a later one no counter goes round more than once. *)
Definition follows (a b : truth) : Prop :=
  tTime a <= tTime b < tTime a + 4000000000 * 1000000 /\ (tBytes a <= tBytes b)%Q /\
  tRecv a <= tRecv b < tRecv a + U32 /\ tExp a <= tExp b < tExp a + U32.
Fixpoint history (a : truth) (l : list truth) : Prop :=
  match l with [] => True | b :: r => follows a b /\ history b r end.

(* The bit rate (kilobits per second) and the share of packets lost between
   two moments. *)
Definition rateOf (a b : truth) : Q :=
  if tTime b =? tTime a then 0%Q
  else (8 * (tBytes b - tBytes a) * 1000000 / inject_Z (tTime b - tTime a))%Q.
Definition lossOf (a b : truth) : Q :=
  if tExp b =? tExp a then 0%Q
  else (1 - inject_Z (tRecv b - tRecv a) / inject_Z (tExp b - tExp a))%Q.
Fixpoint between (f : truth -> truth -> Q) (a : truth) (l : list truth) : list Q :=
  match l with [] => [] | b :: r => f a b :: between f b r end.

(* The moment reception starts. *)
Definition started (t : Z) : truth := mkTr t 0 0 0 0.
