(** Model of a filter's event queue: Event (src/Event.cpp 28-51) and
    BaseFilter::pushEvent/newEvent/processEvent (src/Filter.cpp 422-466).

    Times are nanoseconds (system_clock), delays milliseconds. [std::priority_queue]
    is a bag whose top is some element with no greater element in the sense of
    Event::operator< (ties are resolved arbitrarily: the position is an argument).
    Each round of the loop in processEvent is one [Round]; all of processEvent and
    pushEvent run under the filter's mutex, so rounds and pushes interleave only in
    whole. Handlers are reduced to whether the action is known to the filter. *)
From Verif Require Import Base.

Record event := mkEvent {
  ename : Z;          (* identity of the command *)
  estamp : Z;         (* timestamp *)
  edelay : Z;         (* delay *)
  eknown : bool       (* action not empty and in eventMap (432) *)
}.

(** Event::operator<, Event.cpp 29-32: reversed, so the earliest is the greatest. *)
Definition ev_less (a b : event) : bool := (estamp a >? estamp b)%Z.

(** canBeExecuted, Event.cpp 46-49: duration_cast truncates toward zero. *)
Definition canBeExecuted (e : event) (now : Z) : bool := (edelay e <=? (now - estamp e) ÷ 1000000)%Z.

Inductive eop :=
| Push (e : event)                 (* pushEvent, 463-467 *)
| Round (pos : nat) (now : Z).     (* newEvent (449-461) at clock reading [now], then one round (422-447);
                                      [pos]: which element is top() *)

Inductive eans :=
| Queued
| Executed (e : event)             (* the handler ran, then pop() *)
| Dropped (e : event)              (* unknown action: pop() without running anything *)
| Quiet.                           (* newEvent() was false: processEvent returns *)

(** top() may be the element at [pos]: no element is greater. *)
Definition is_top (q : list event) (pos : nat) : bool :=
  match nth_error q pos with
  | Some e => forallb (fun x => negb (ev_less e x)) q
  | None => false
  end.

(* Model's own: priority_queue::pop of that element (library). *)
Definition remove_at (q : list event) (pos : nat) : list event := firstn pos q ++ skipn (S pos) q.

(** [None]: [pos] is not a possible top. *)
Definition estep (q : list event) (o : eop) : option (list event * eans) :=
  match o with
  | Push e => Some (q ++ [e], Queued)
  | Round pos now =>
      match q with
      | [] => Some (q, Quiet)
      | _ =>
          if is_top q pos then
            match nth_error q pos with
            | Some e =>
                if canBeExecuted e now then
                  Some (remove_at q pos, if eknown e then Executed e else Dropped e)
                else Some (q, Quiet)
            | None => None
            end
          else None
      end
  end.

(* Model's own: the histories of the queue. *)
Inductive erun : list event -> list (eop * eans) -> Prop :=
| er_nil : erun [] []
| er_snoc q tr o q' x : erun q tr -> estep q o = Some (q', x) -> erun q' (tr ++ [(o, x)]).
