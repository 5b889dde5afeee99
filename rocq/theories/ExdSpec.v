(** What C108 says, without the model's blocks: which data a stream has been given, from the history alone. *)
From Coq Require Import Arith ZArith List Bool.
From Verif Require Import ExdModel.
Import ListNotations.
Local Open Scope list_scope.

(** What is known of a stream: whether it is described, the data given last, and whether the queue was made for the present description. *)
Record known := mkK { described : bool; given : option (list Z); joined : bool }.
Definition note (k : known) (e : event) : known :=
  match e with
  | NewDesc => if described k then k else mkK true None false
  | Headers x => if described k then mkK true (Some x) (joined k) else k
  | Gone => mkK false None false
  | Plug => mkK (described k) (given k) (described k)
  | Open | Read _ => k
  end.
Definition knownAfter (es : list event) : known := fold_left note es (mkK false None false).

(** The bytes the description its producer has leads to. *)
Definition told (s : store) : option (list Z) :=
  match cur s with
  | None => None
  | Some c => match nth_error (descs s) c with
              | Some (Some d) => match extra d with
                                 | Some b => match nth_error (blocks s) b with Some (Some x) => Some (firstn (extraSize d) x) | _ => None end
                                 | None => None
                                 end
              | _ => None
              end
  end.

(** How many blocks are allocated and not freed. *)
Definition live (s : store) : nat := length (filter (fun b => match b with Some _ => true | None => false end) (blocks s)).

(** Events that leave the data where they are. *)
Definition quiet (e : event) : Prop := match e with Headers _ | Gone => False | _ => True end.
