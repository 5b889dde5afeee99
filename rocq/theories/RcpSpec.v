(** The vocabulary of C100 (the report tells of the receivers there are) and C101 (every transmitter has a port of its own). *)
From Verif Require Import Base RcpModel.

(** Who is there: who came and has not gone. *)
Definition there (h : list visit) (x : receiver) : Prop := In (Comes x) h /\ ~ In (Goes x) h.
(** Receivers come once, as objects of their own, and go once, when they are there. *)
Inductive visits : list visit -> Prop :=
  | vi_none : visits []
  | vi_comes h x : visits h -> (forall y, In (Comes y) h -> who y <> who x) -> visits (h ++ [Comes x])
  | vi_goes h x : visits h -> there h x -> visits (h ++ [Goes x]).
(** No two receivers that are there at the same time have the same number. *)
Definition numbersDiffer (h : list visit) : Prop :=
  forall h1 h2 x y, h = h1 ++ h2 -> there h1 x -> there h1 y -> number x = number y -> x = y.

(** The ports a server may have. *)
Definition serverPorts : list Z := [8554; 8556; 8558; 8560; 8562; 8564]%Z.
