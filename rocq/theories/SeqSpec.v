(* What a user expects of the numbers and origin times of frames. *)
From Coq Require Import ZArith List Bool.
From Verif Require Import ZMap SeqModel.
Import ListNotations.
Local Open Scope list_scope.
Local Open Scope Z_scope.

(* The stamps of the frames that left through writer [i], oldest first. *)
Definition stampsOf (i : Z) (ps : list produced) : list stamp :=
  map snd (List.filter (fun x => fst x =? i) (concat (map handed ps))).

(* The work is done at a round: a regular filter only runs with new input. *)
Definition runs (r : role) (input : bool) : bool :=
  match r with Regular => input | Server => true | NoRole => false end.
(* The rounds at which the work produces a frame for writer [i]. *)
Definition produces (r : role) (i : Z) (e : sevent) : bool :=
  match e with SRound _ input _ w => runs r input && marked w i | _ => false end.

(* Consecutive numbers (of 64 bits) from [k] on, at the given times. *)
Fixpoint numbered (k : Z) (ts : list Z) : list stamp :=
  match ts with [] => [] | t :: ts => mkSt (k mod 2 ^ 64) t :: numbered (k + 1) ts end.
Definition timeOf (e : sevent) : Z := match e with SRound now _ _ _ => now | _ => 0 end.
Definition sourceOf (e : sevent) : stamp := match e with SRound _ _ src _ => src | _ => mkSt 0 0 end.
Definition ownOf (i : Z) (e : sevent) : stamp := match e with SRound _ _ _ w => own w i | _ => mkSt 0 0 end.

(* The stamps that the frames of writer [i] should carry, for the events that
   follow its connection: sources and mixers number their frames themselves
   from 0, with the time they were made; the others pass on what came in. *)
Definition expected (k : kind) (r : role) (i : Z) (es : list sevent) : list stamp :=
  let rounds := List.filter (produces r i) es in
  match k with
  | Head | ManyToOne => numbered 0 (map timeOf rounds)
  | OneToMany => map sourceOf rounds
  | OneToOne => map (ownOf i) rounds
  end.

(* The work marks a destination frame only if it succeeds, and a mixer marks
   its only destination whenever it succeeds. *)
Definition honest (k : kind) (e : sevent) : Prop :=
  match e with
  | SRound _ _ _ w =>
      match k with
      | ManyToOne => forall i, marked w i = ok w
      | _ => forall i, marked w i = true -> ok w = true
      end
  | _ => True
  end.
Definition keeps (i : Z) (e : sevent) : Prop := e <> SDisconnect i.

(* A filter as it is built: no writers yet; mixers have one at most. *)
Definition built (s : stage) : Prop := writers s = [] /\ (skind s = ManyToOne -> maxWriters s = 1).
