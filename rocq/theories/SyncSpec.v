(** What to expect of a filter that takes frames from several inputs. *)
From Verif Require Import Base ZMap SyncModel.
Local Open Scope list_scope.
Local Open Scope Z_scope.

Fixpoint nondecr (l : list Z) : Prop := match l with a :: ((b :: _) as r) => a <= b /\ nondecr r | _ => True end.
(** The rounds in which the filter processed something. *)
Definition processed (es : list entry) : list (list (Z * Z)) := map taken (filter done es).
(** One time picked from every round. *)
Definition picks (ts : list Z) (rs : list (list (Z * Z))) : Prop := Forall2 (fun t r => In t (map snd r)) ts rs.
(** The [b]-th of the times lies at least (b - a - 1) periods after the [a]-th, for all a < b: no more rounds than
    the frame rate allows, give or take one. *)
Definition paced (ft : Z) (ts : list Z) : Prop :=
  forall a b ta tb, (a < b)%nat -> nth_error ts a = Some ta -> nth_error ts b = Some tb -> tb - ta >= (Z.of_nat b - Z.of_nat a - 1) * ft.
Definition noFrameTime (o : sop) : Prop := match o with SetFrameTime _ => False | _ => True end.
(** Frames that arrive at input [i], and those taken from it. *)
Definition arrivals (i : Z) (ops : list sop) : list Z := flat_map (fun o => match o with Arrive j t => if j =? i then [t] else [] | _ => [] end) ops.
Definition takenFrom (i : Z) (es : list entry) : list Z := flat_map (fun e => flat_map (fun x => if fst x =? i then [snd x] else []) (taken e)) es.
(** The frame an input would give next. *)
Definition front (f : filt) (i t : Z) : Prop := exists q, mfind i (ins f) = Some (t :: q).
Definition input (f : filt) (i : Z) : Prop := exists q, mfind i (ins f) = Some q.
(** Only arrivals and rounds. *)
Definition plain (o : sop) : Prop := match o with Arrive _ _ | Round _ _ => True | _ => False end.
Definition neverFull (o : sop) : Prop := match o with Round full _ => forall i, full i = false | _ => True end.
