(** What C93 is about: sound that is captured a fixed time after (or before) its presentation time. *)
From Verif Require Import Base AudioBufIface AudioBufSpec.

Section Spec.
Context {B : Type}.
Variable zero : B.
Variable ch : nat.
Variable c : acfg.

(** Every frame put in has [n] samples, [n] within [lo] and [hi], and was captured [d] after its presentation time. *)
Definition steady (lo hi : nat) (d : Z) (os : list (aop B * Z)) : Prop :=
  Forall (fun og => match og with (Put ts n _, g) => lo <= n <= hi /\ g = (ts + d)%Z | _ => True end) os.

(** A frame that is refused leaves no silence behind: the line is as long as before, or starts anew. *)
Fixpoint no_leftover (t : timeline B) (os : list (aop B)) : Prop :=
  match os with
  | [] => True
  | o :: r => match tl_step zero ch c t o with
              | Some (t', x) => (x = Told [] -> wr t' = wr t \/ origin t' = None) /\ no_leftover t' r
              | None => True
              end
  end.

(** The duration of [n] samples, in microseconds, rounded up. *)
Definition lasts (n : nat) : Z := (at_time c n + 1)%Z.
End Spec.
