(** What it means that the demuxer looks after the memory of its packets. *)
From Verif Require Import Base DmmModel.
Local Open Scope nat_scope.

(** The demuxer still has a pointer to block [x]. *)
Definition pointsTo (d : dmx) (x : nat) : Prop := pkt d = Some x \/ buf d = Some x.
(** No leak and no dangling pointer: the blocks there are, each once, are the blocks it points to. *)
Definition tidy (d : dmx) : Prop := NoDup (live d) /\ forall x, In x (live d) <-> pointsTo d x.
(** A packet without data on a stream that is split and needs no conversion, with its output connected. *)
Definition emptySplit (h : happening) : Prop := exists l, h = Round (Packet true true true Direct) true l.
