(** Decimal numbers and the floats nearest to them. *)
From Coq Require Import Ascii String.
From Verif Require Import Base JsonModel CtlSpec F32 FtxModel.
Local Open Scope list_scope.
Local Open Scope Z_scope.

(** The decimal number n / 10^f written in [s]: digits, and a point before the last [f] of them if f > 0 (a point at
    the end is allowed), with an optional minus sign. *)
Definition plainIs (s : str) (n : Z) (f : nat) : Prop :=
  (f = O /\ s <> [] /\ digits s n) \/
  exists a b, s = a ++ "."%char :: b /\ List.length b = f /\ a ++ b <> [] /\ digits (a ++ b) n.
Definition realIs (s : str) (n : Z) (f : nat) : Prop :=
  plainIs s n f \/ exists t, s = "-"%char :: t /\ plainIs t (- n) f.
(** [v] is a float nearest to n / d. *)
Definition nearest (v n d : Z) : Prop :=
  isFloat v /\ forall w, isFloat w -> Z.abs (v * d - n * one) <= Z.abs (w * d - n * one).
(** The range of magnitudes with full precision, from 2^-125 up to the largest float. *)
Definition ordinary (v : Z) : Prop := 2 ^ 24 <= Z.abs v <= (2 ^ 24 - 1) * 2 ^ 253.
(** [v] is the float of a decimal of at most six significant digits (C86_nearest shows that [ofDec m k] is the float
    nearest to m * 10^k). *)
Definition shortDecimal (v : Z) : Prop := exists m k, Z.abs m < 1000000 /\ v = ofDec m k.
