(* What the conversation with an RTSP server should be. *)
From Coq Require Import ZArith QArith List Bool.
From Verif Require Import ZMap StuModel.
Import ListNotations.
Local Open Scope list_scope.
Local Open Scope Z_scope.

Definition reachable (s : rx) : Prop := exists l, run rx0 l = Fine s.
Definition session (s : rx) (sid : Z) (c : conv) : Prop := mfind sid (convs s) = Some c.

(* The streams of a description that can be received, by number. *)
Fixpoint receivableFrom (n : nat) (l : list stream) : list nat :=
  match l with [] => [] | x :: r => if starts x then n :: receivableFrom (S n) r else receivableFrom (S n) r end.
Definition receivable (l : list stream) : list nat := receivableFrom 0 l.

(* A whole conversation: the description, every stream that can be received
   once and in order, whatever the answers, and then playing. *)
Definition exchanges (is : list nat) (answers : list bool) : list msg :=
  flat_map (fun x => [Ask (Setup (fst x)); Answer (snd x)]) (combine is answers).
Definition whole (l : list stream) (answers : list bool) (played : bool) : list msg :=
  [Ask Describe; Answer true] ++ exchanges (receivable l) answers ++ [Ask Play; Answer played].
Definition prefix {A} (a b : list A) : Prop := exists r, b = a ++ r.
(* The start of one, or a server without a description; requests that keep
   the session alive; and the end. *)
Definition proper (l : list stream) (m : list msg) : Prop :=
  exists answers played pre n fin, List.length answers = List.length (receivable l) /\ m = pre ++ repeat (Ask KeepAlive) n ++ fin /\
    (prefix pre (whole l answers played) \/ pre = [Ask Describe; Answer false]) /\
    (n <> 0%nat -> pre = whole l answers true) /\ (fin = [] \/ fin = [Ask Teardown]).

(* The streams the server has agreed to send: a request to set one up followed
   by a good answer. *)
Definition heard (st : option nat * list nat) (m : msg) : option nat * list nat :=
  match m with
  | Ask (Setup i) => (Some i, snd st)
  | Answer true => (None, match fst st with Some i => snd st ++ [i] | None => snd st end)
  | _ => (None, snd st)
  end.
Definition granted (m : list msg) : list nat := snd (fold_left heard m (None, [])).

(* The stream's data come to a sink of its own, which is open, and are
   counted. *)
Definition received (s : rx) (sid : Z) (c : conv) (i : nat) : Prop :=
  exists x, nth_error (streams c) i = Some x /\ mfind (sport x) (reg s) = Some (sid, i) /\ In (sport x) (stats c) /\ In i (sinks c) /\ ~ In i (orphans c) /\ ~ In i (dead c).
(* The session has neither ended nor been removed. *)
Definition goingOn (c : conv) : Prop := ph c <> PClosed /\ ph c <> PGone.

(* No stream that can be received has the port of another stream. *)
Definition apart (s : rx) : Prop := forall s1 c1 i1 x1 s2 c2 i2 x2, session s s1 c1 -> session s s2 c2 ->
  nth_error (streams c1) i1 = Some x1 -> nth_error (streams c2) i2 = Some x2 -> starts x1 = true -> sport x1 = sport x2 -> s1 = s2 /\ i1 = i2.

(* The events of one session. *)
Definition eventsOf (sid : Z) (l : list (Z * event)) : list event := map snd (filter (fun x => fst x =? sid) l).
