(** Reading a history of the worker pool. *)
From Verif Require Import Base ZMap PoolModel.

(** The filter worker [w] is executing after the history [tr]: the one it started and
    has not finished. *)
Definition busy (w : nat) (tr : list (pevent * option nat)) : option nat :=
  fold_left (fun cur x => match x with
     | (Look v _, Some o) => if v =? w then Some o else cur
     | (Finish v _, _) => if v =? w then None else cur
     | _ => cur end) tr None.

(** Worker [w] has to do with [o]: executing it or tidying up after it. *)
Definition handles (s : wstate) (o : nat) : Prop :=
  match s with Idle => False | Running x => x = o | Settling x _ => x = o end.

(** A caller that removes only filters that are neither scheduled nor executing, and
    that does not add again a filter it has removed. *)
Definition calm (p : pool) (e : pevent) : Prop :=
  match e with
  | Remove i => forall o, mfind i (regs p) = Some o ->
                  ~ In o (queue p) /\ (forall s, In s (workers p) -> ~ handles s o)
  | Add o => ~ In o (leaving p) /\ ~ In o (removed p)
  | _ => True
  end.

Inductive calm_run (idof : nat -> Z) (p0 : pool) : pool -> list (pevent * option nat) -> Prop :=
| cr_nil : calm_run idof p0 p0 []
| cr_snoc p tr e p' s : calm_run idof p0 p tr -> calm p e -> pstep idof p e = Next p' s ->
    calm_run idof p0 p' (tr ++ [(e, s)]).
