(** The vocabulary of C97 (the control port keeps serving) and C98 (one controller, one pipeline). *)
From Coq Require Import Ascii String.
From Verif Require Import Base ZMap JsonModel JsonSpec NetModel PipeModel CtlModel CtlSpec CskModel.
Local Open Scope list_scope.

(** A client that does everything right: it sends a JSON object as one piece that fits the buffer, and
    waits for the answer. *)
Definition wellBehaved (c : client) : Prop :=
  exists f m, good (Obj m) /\ does c = Sends (write f (Obj m)) [] /\
    (N.of_nat (List.length (write f (Obj m))) <= 16383)%N /\ ~ In "000"%char (write f (Obj m)) /\ stays c = true.

(** How many clients were let in and got nothing. *)
Definition leftOpen (gs : list got) : nat := List.length (filter (fun g => match g with Unanswered => true | _ => false end) gs).

(** What was read from a client and what was said to it. *)
Definition exchange (x : client * got) : list (str * reply) :=
  match does (fst x), snd x with
  | Sends m _, Answered t => [(m, Answer t)]
  | Sends m _, Unanswered => [(m, NoAnswer)]
  | Leaves, Answered t => [([], Answer t)]
  | Leaves, Unanswered => [([], NoAnswer)]
  | _, _ => []
  end.
