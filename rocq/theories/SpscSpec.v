(** What a forced writer keeps and when its flush is undisturbed. *)
From Verif Require Import Base RingIface RingModel SpscModel.

Section Spec.
Context {V : Type}.
Variable K : nat.
Notation frame := (list V).

(** The frames the queue keeps: published ones, less the newest at each flush. *)
Definition kept1 (s : st V) (e : ev V) (k : list frame) : list frame :=
  match e with
  | W _ | WForce => match wp s with WFlush _ => removelast k | WAddSt g _ => k ++ [g] | _ => k end
  | _ => k
  end.
Fixpoint kept (s : st V) (k : list frame) (es : list (ev V)) : list frame :=
  match es with
  | [] => k
  | e :: t => match sstep K s e with Some s' => kept s' (kept1 s e k) t | None => k end
  end.
(** The reader takes no frame out while a flush is under way. *)
Fixpoint calm (s : st V) (es : list (ev V)) : Prop :=
  match es with
  | [] => True
  | e :: t =>
      match e, rp s, wp s with R, RRmSt _, WFlush _ => False | _, _, _ => True end /\
      match sstep K s e with Some s' => calm s' t | None => True end
  end.
End Spec.
