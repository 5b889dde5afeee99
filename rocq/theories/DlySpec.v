(* What a user expects of the delay reported for a path. *)
From Coq Require Import ZArith List.
Import ListNotations.
Local Open Scope list_scope.
Local Open Scope Z_scope.

(* Frames as (time, delay).  Windows: a window starts at a time [start]; it
   ends with the first frame whose time is at least [W] later, which belongs to
   the next one.  The result: the windows that have ended, and the last one
   with its start. *)
Fixpoint windows (W start : Z) (cur : list (Z * Z)) (fs : list (Z * Z)) : list (list (Z * Z)) * (Z * list (Z * Z)) :=
  match fs with
  | [] => ([], (start, cur))
  | f :: fs =>
      match cur with
      | [] => windows W start [f] fs
      | _ => if W <=? fst f - start
             then let (ws, c) := windows W (fst f) [f] fs in (cur :: ws, c)
             else windows W start (cur ++ [f]) fs
      end
  end.
Definition ended (W start : Z) (fs : list (Z * Z)) : list (list (Z * Z)) := fst (windows W start [] fs).

(* Frames that have the time of the frame before are not told apart from it. *)
Fixpoint distinct (prev : Z) (fs : list (Z * Z)) : list (Z * Z) :=
  match fs with
  | [] => []
  | f :: fs => if fst f =? prev then distinct prev fs else f :: distinct (fst f) fs
  end.

Definition total (w : list (Z * Z)) : Z := fold_right Z.add 0 (map snd w).
(* The mean, in whole microseconds. *)
Definition mean (w : list (Z * Z)) : Z := total w / Z.of_nat (length w).
(* Frames whose times do not go back and are at most [G] apart. *)
Fixpoint paced (G prev : Z) (fs : list (Z * Z)) : Prop :=
  match fs with [] => True | f :: fs => prev <= fst f <= prev + G /\ paced G (fst f) fs end.
