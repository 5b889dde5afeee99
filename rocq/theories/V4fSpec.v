(* What a user of the camera's frames relies on: specification. *)
From Coq Require Import ZArith List Bool.
From Verif Require Import NamesModel V4lModel V4fModel.
Import ListNotations.
Local Open Scope Z_scope.

(* The times of the frames handed on. *)
Fixpoint times (o : list (option vframe * Z)) : list Z :=
  match o with
  | [] => []
  | (Some f, _) :: t => pts f :: times t
  | (None, _) :: t => times t
  end.
(* Successive times are between a and b apart. *)
Fixpoint spaced (a b : Z) (l : list Z) : Prop :=
  match l with
  | x :: ((y :: _) as t) => a <= y - x <= b /\ spaced a b t
  | _ => True
  end.
(* Times that are d apart, n of them after the first. *)
Fixpoint regular (x d : Z) (n : nat) : list Z :=
  match n with O => [x] | S k => x :: regular (x + d) d k end.

(* The bytes of a picture without padding. *)
Definition pictureBytes (f : fourcc) (w h : Z) : Z :=
  match f with FYuyv => 2 * w * h | FRgb24 => 3 * w * h | FYuv420 => w * h + w * h / 2 | _ => 0 end.
(* The bytes of a line (of the first plane). *)
Definition lineBytes (f : fourcc) (w : Z) : Z :=
  match f with FYuyv => 2 * w | FRgb24 => 3 * w | FYuv420 => w | _ => 0 end.

(* The round brings a frame: something is ready, the driver gives a buffer it
   has, and takes it back. *)
Definition brings (s : capt) (r : round) : Prop :=
  rSel r = SelReady /\ (exists i, rDq r = Some i /\ In i (queue s)) /\ rQ r = true.
(* The buffer is not taken back. *)
Definition loses (s : capt) (r : round) : Prop :=
  rSel r = SelReady /\ (exists i, rDq r = Some i /\ In i (queue s)) /\ rQ r = false.
(* The picture fits the buffer and the frame. *)
Definition fits (s : capt) (f : vframe) (r : round) : Prop :=
  let n := fh (fmt (ccam s)) * fbpl (fmt (ccam s)) in
  0 <= n < 2 ^ 32 /\ n <= Z.of_nat (List.length (rData r)) /\ n <= room f.
