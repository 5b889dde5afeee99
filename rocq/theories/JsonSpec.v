(** Which JSON values have a faithful text. *)
From Coq Require Import Ascii String.
From Verif Require Import Base JsonModel.
Local Open Scope list_scope.

(** The text of a string value does not end in a backslash. *)
Definition goodText (s : str) : Prop := forall a, s <> a ++ [bslash].

(** In a name every quotation mark follows a backslash, and the last byte is no backslash. *)
Definition goodName (s : str) : Prop :=
  (forall a b, s = a ++ quote :: b -> exists a', a = a' ++ [bslash]) /\ goodText s.

(** A number is a non-empty text of digits, '.' and '-'. *)
Definition goodNumber (s : str) : Prop := s <> [] /\ Forall (fun c => In c (list_ascii_of_string "0123456789.-")) s.

Inductive good : node -> Prop :=
| g_null : good (Val VT_NULL [])
| g_true : good (Val VT_BOOL (lit "true"))
| g_false : good (Val VT_BOOL (lit "false"))
| g_number s : goodNumber s -> good (Val VT_NUMBER s)
| g_string s : goodText s -> good (Val VT_STRING s)
| g_obj c : (forall k v, In (k, v) c -> goodName k /\ good v) -> good (Obj c)
| g_arr c : (forall v, In v c -> good v) -> good (Arr c).

(** The empty node of the same kind, which the caller passes to the parser. *)
Definition blank (n : node) : node :=
  match n with Obj _ => Obj [] | Arr _ => Arr [] | Val _ _ => Val VT_NULL [] end.

(** A sequence of messages given to one parser, each with an empty object as root, as the control
    interface does: the parser afterwards, and what came out for each message. *)
Inductive outcome := Value (n : node) | Refused.
Inductive msgs : parser -> list (str * outcome) -> Prop :=
| ms_nil : msgs newParser []
| ms_ok p h m p' r : msgs p h -> parse p (Obj []) m = Parsed p' r -> msgs p' (h ++ [(m, Value r)])
| ms_err p h m p' r : msgs p h -> parse p (Obj []) m = Failed p' r -> msgs p' (h ++ [(m, Refused)]).
