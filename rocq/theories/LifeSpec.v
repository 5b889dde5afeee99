(** What the callers of Writer/Reader promise, and whole (uninterrupted) calls. *)
From Verif Require Import Base LifeModel.

(** Callers disconnect an end only when its filter is not working on a frame. *)
Definition tidy (l : life) (v : levent) : bool :=
  match v with DiscLoad s => negb (eheld (getE l s)) | _ => true end.

(** Runs in which ends are disconnected only while their filter is idle. *)
Fixpoint tidy_run (l : life) (vs : list levent) : bool :=
  match vs with
  | [] => true
  | v :: t => match lstep l v with
              | Fine l' => tidy l v && tidy_run l' t
              | Disabled => tidy_run l t
              | _ => tidy l v
              end
  end.

(** Whole calls: a use of a frame, or a disconnection, of one end. *)
Inductive call := Use (s : side) | Disconnect (s : side).
Definition expand (c : call) : list levent :=
  match c with
  | Use s => [Check s; Acquire s; Touch s; Release s]
  | Disconnect s => [DiscLoad s; DiscAct s; DiscNull s]
  end.
Definition is_disc (s : side) (c : call) : bool :=
  match s, c with Wr, Disconnect Wr => true | Rd, Disconnect Rd => true | _, _ => false end.
