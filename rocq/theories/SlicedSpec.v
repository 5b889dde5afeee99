(** Specification of the sliced video queue: a bounded list of pieces. *)
From Coq Require Import List ZArith Arith.
From Verif Require Import SlicedIface.
Import ListNotations.

Section Spec.
Context {B : Type}.
Record pieces := mkPieces {
  room : nat;                          (* pieces the queue holds *)
  waiting : list (pmeta * list B);     (* oldest first *)
  gone : nat;                          (* pieces lost *)
  draft : list (list B);               (* slices of the picture being filled *)
  owner : Z; users : list Z
}.

(** Publishing [new] behind [old] with room for [n]: everything if it fits; otherwise
    the oldest n-1 pieces and the very last one. *)
Definition keep (n : nat) (old new : list (pmeta * list B)) : list (pmeta * list B) :=
  let all := old ++ new in
  if length all <=? n then all else firstn (n - 1) all ++ skipn (length all - 1) all.

Definition p_step (s : pieces) (r : sreq B) : pieces * sans B :=
  match r with
  | Offer => (s, Yes (length (waiting s) <? room s))
  | ForceOffer => (s, Yes true)
  | AddSlice d =>
      if length (draft s) <? 16
      then (mkPieces (room s) (waiting s) (gone s) (draft s ++ [d]) (owner s) (users s), Yes true)
      else (s, Yes false)
  | Publish m =>
      let new := map (fun d => (m, d)) (draft s) in
      let all := length (waiting s) + length new in
      (mkPieces (room s) (keep (room s) (waiting s) new) (gone s + (all - room s)) [] (owner s) (users s),
       Readers (users s))
  | PeekS => (s, Piece (hd_error (waiting s)))
  | RemoveS =>
      match waiting s with
      | [] => (s, Who (-1))
      | _ :: t => (mkPieces (room s) t (gone s) (draft s) (owner s) (users s), Who (owner s))
      end
  | CountS => (s, Amount (length (waiting s)))
  | LostS => (s, Amount (gone s))
  end.

Fixpoint p_run (s : pieces) (rs : list (sreq B)) : pieces * list (sans B) :=
  match rs with
  | [] => (s, [])
  | r :: t => let (s1, a) := p_step s r in
              let (s2, l) := p_run s1 t in (s2, a :: l)
  end.

Definition p_init (n : nat) (w : Z) (ids : list Z) : pieces := mkPieces n [] 0 [] w ids.

(** No slice is longer than the buffers. *)
Definition slices_fit (size : nat) (rs : list (sreq B)) : Prop :=
  Forall (fun r => match r with AddSlice d => length d <= size | _ => True end) rs.
End Spec.
Arguments pieces : clear implicits.
