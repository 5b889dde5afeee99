(** Concurrent use of AudioCircularBuffer's byte counter (src/AudioCircularBuffer.cpp).
    The writing filter's thread runs pushBack (223-254), which executes
    [elements += bytes] (251) without the mutex; the reading filter's thread runs
    getFront (69-93) -> popFront -> fillOutputBuffers, which executes
    [elements -= bytes] (290) holding [mtx]. The counter is a plain [unsigned]
    (AudioCircularBuffer.hh:128), so each compound assignment is a load followed by a
    store. Only the counter and the size checks (229, 260) are modelled; a thread's
    position is its register. *)
From Verif Require Import Base.

Record race := mkRace {
  relem : nat;                   (* elements *)
  wpc : option (nat * nat);      (* writer between load and store: loaded value, bytes *)
  rpc : option (nat * nat);      (* reader, same *)
  pushed : nat;                  (* bytes of completed pushes *)
  popped : nat                   (* bytes of completed pops *)
}.

Inductive rev :=
| WLoad (bytes : nat)            (* pushBack: size check passed, loads elements *)
| WStore
| RLoad (bytes : nat)            (* popFront: size check passed, loads elements *)
| RStore.

(** [L] is channelMaxLength. *)
Definition rstep (L : nat) (s : race) (e : rev) : option race :=
  match e with
  | WLoad n => match wpc s with
               | None => if n <=? L - relem s
                         then Some (mkRace (relem s) (Some (relem s, n)) (rpc s) (pushed s) (popped s)) else None
               | Some _ => None end
  | WStore => match wpc s with
              | Some (v, n) => Some (mkRace (v + n) None (rpc s) (pushed s + n) (popped s))
              | None => None end
  | RLoad n => match rpc s with
               | None => if n <=? relem s
                         then Some (mkRace (relem s) (wpc s) (Some (relem s, n)) (pushed s) (popped s)) else None
               | Some _ => None end
  | RStore => match rpc s with
              | Some (v, n) => Some (mkRace (v - n) (wpc s) None (pushed s) (popped s + n))
              | None => None end
  end.

(* Model's own: an interleaving of the two threads, and its start. *)
Fixpoint rrun (L : nat) (s : race) (es : list rev) : option race :=
  match es with
  | [] => Some s
  | e :: t => match rstep L s e with Some s' => rrun L s' t | None => None end
  end.

(* Model's own: an interleaving of the two threads, and its start. *)
Definition race0 : race := mkRace 0 None None 0 0.
