(** Reading a pipeline and its history of commands. *)
From Verif Require Import Base ZMap NetModel PipeModel.

(** The filters a path names: its origin, its destination and the ones in between. *)
Definition names (pa : path) (f : Z) : Prop := f = porg pa \/ f = pdst pa \/ In f (pmid pa).

(** The filter object known under an identifier, if any. *)
Definition objOf (p : pipe) (f : Z) : option nat := option_map fobj (mfind f (pfilters p)).

(** How many filters were created during a history. *)
Fixpoint creations (h : list (cmd * bool)) : nat :=
  match h with
  | [] => 0
  | (CreateFilter _ _ _, true) :: t => S (creations t)
  | _ :: t => creations t
  end.

(** A command that keeps mid filters to themselves: the mid filters of the new path are named
    by no registered path, and its ends are mid filters of none. *)
Definition exclusive (p : pipe) (c : cmd) : Prop :=
  match c with
  | CreatePath _ org dst _ _ mids =>
      (forall i pa m, mfind i (ppaths p) = Some pa -> In m mids -> ~ names pa m) /\
      (forall i pa, mfind i (ppaths p) = Some pa -> ~ In org (pmid pa) /\ ~ In dst (pmid pa))
  | _ => True
  end.

(** Histories whose every step (state, command, next state, answer) satisfies a condition. *)
Inductive hist (ok : pipe -> cmd -> pipe -> bool -> Prop) : pipe -> list (cmd * bool) -> Prop :=
| h_nil : hist ok emptyPipe []
| h_snoc p h e c p' a : hist ok p h -> pcmd p e c = Ok (p', a) -> ok p c p' a -> hist ok p' (h ++ [(c, a)]).

(** Stop did not give up half-way. *)
Definition stopDone (p : pipe) (c : cmd) (p' : pipe) (a : bool) : Prop :=
  c = Stop -> a = true \/ p' = p.

(** A path is only created from an output that is free: the one it names, or, if it leaves the
    choice to the filter, some output. *)
Definition direct (p : pipe) (c : cmd) (_ : pipe) (_ : bool) : Prop :=
  match c with
  | CreatePath _ org _ ow _ _ => forall x, mfind org (pfilters p) = Some x ->
      ((0 <= ow)%Z -> mfind ow (fwr x) = None) /\ ((ow < 0)%Z -> length (fwr x) < fmaxW x)
  | _ => True
  end.

(** Output w of filter f feeds input r of filter g. *)
Definition connected (n : net) (f w g r : Z) : Prop :=
  exists x y q o z k, mfind f (fs n) = Some x /\ mfind w (fwr x) = Some (Some q) /\
    mfind g (fs n) = Some y /\ mfind r (frd y) = Some (Some o) /\
    nth_error (rds n) o = Some z /\ rq z = Some q /\ In g (rfs z) /\
    nth_error (qs n) q = Some k /\ qlive k = true /\ qconn k = true.
