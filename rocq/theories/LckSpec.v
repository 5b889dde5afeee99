(** The vocabulary of C99 (threads do not block each other for ever). *)
From Verif Require Import Base LckModel.

(** What may happen with [n] workers, when only requests that [allowed] says may be made are made: the
    control thread starts on a request when it is done with the one before, a worker on a round when it is done
    with the one before, and threads do their actions in any order. *)
Inductive happens (kind : nat -> fkind) (n : nat) (allowed : sys -> request -> Prop) : sys -> Prop :=
  | ha_start : happens kind n allowed start
  | ha_request s q : happens kind n allowed s -> prog s 0%nat = [] -> allowed s q -> happens kind n allowed (setProg 0 (requestActs q) s)
  | ha_round s t x : happens kind n allowed s -> (1 <= t <= n)%nat -> prog s t = [] -> happens kind n allowed (setProg t (roundActs kind x) s)
  | ha_act s t s' : happens kind n allowed s -> exec kind t s = Some s' -> happens kind n allowed s'.

(** Threads go on with what they have begun, in some order. *)
Inductive goesOn (kind : nat -> fkind) : sys -> sys -> Prop :=
  | go_none s : goesOn kind s s
  | go_act s t s1 s2 : exec kind t s = Some s1 -> goesOn kind s1 s2 -> goesOn kind s s2.

(** What thread [t] cannot go on without. *)
Definition needs (s : sys) (t : nat) (l : lock) : Prop :=
  match prog s t with Acq k :: _ => k = l | Await f :: _ => Run f = l | _ => False end.
(** Each of these threads waits for one of them. *)
Definition deadlock (s : sys) (ts : list nat) : Prop :=
  ts <> [] /\ forall t, In t ts -> exists l u, needs s t l /\ own s l = Some u /\ In u ts.

(** A request that connects a filter, or shares a filter's reader, with a dasher that reads from this filter. *)
Definition upstream (kind : nat -> fkind) (s : sys) (a b : nat) : Prop := kind a = Other /\ kind b = Dash /\ In (b, a) (fed s).
(** The requests that are safe: no filter is connected to itself, and no filter connected to, or made to share its
    reader with, a dasher that already reads from it. *)
Definition careful (kind : nat -> fkind) (s : sys) (q : request) : Prop :=
  match q with
  | Connects a b _ _ => a <> b /\ ~ upstream kind s a b
  | Shares a b _ _ _ => ~ upstream kind s a b
  | _ => True
  end.
