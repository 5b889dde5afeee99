(* What a user expects of the parameter sets of a session description. *)
From Coq Require Import ZArith List.
From Verif Require Import Bytes HspModel.
Import ListNotations.
Local Open Scope list_scope.
Local Open Scope Z_scope.

(* The configuration data for some parameter sets: each after a start code. *)
Definition config (rs : list bytes) : bytes := flat_map (fun r => [0; 0; 0; 1] ++ r) rs.

(* A request for a frame, and the frame it should be answered with: the unit
   after a start code, cut to the space there is, with its time. *)
Definition frameFor (e : hevent) : houtcome :=
  match e with
  | Request space u t =>
      let k := Z.min (len u) (space - 4) in
      Handed (4 + k) (Some ([0; 0; 0; 1] ++ firstn (Z.to_nat k) u)) t (len u - k)
  | Connect => Info []
  end.
(* Requests with room for a start code; sizes fit an unsigned. *)
Definition roomy (e : hevent) : Prop :=
  match e with Request space u t => 4 <= space < 4294967296 | Connect => False end.
