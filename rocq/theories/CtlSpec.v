(** What control messages mean, as documented for users: a message is an object with a
    member "events", an array of events; each event has an "action" and an object "params".
    Members may come in any order, and others may be present. *)
From Coq Require Import Ascii String.
From Verif Require Import Base ZMap JsonModel NamesModel NetModel PipeModel CtlModel.
Local Open Scope list_scope.

(** Decimal texts. *)
Inductive digits : str -> Z -> Prop :=
| dg_nil : digits [] 0
| dg_snoc s z d : digits s z -> (0 <= d <= 9)%Z -> digits (s ++ [ascii_of_N (48 + Z.to_N d)]) (10 * z + d).
Definition int32 (z : Z) : Prop := (-2147483648 <= z <= 2147483647)%Z.
Definition intIs (s : str) (z : Z) : Prop :=
  int32 z /\ ((s <> [] /\ digits s z) \/ exists t, s = "-"%char :: t /\ t <> [] /\ digits t (- z)).

(** The object [c] has exactly one member [k], with value [v]. *)
Definition member (c : list (str * node)) (k : string) (v : node) : Prop :=
  exists a b, c = a ++ (lit k, v) :: b /\ ~ In (lit k) (map fst a) /\ ~ In (lit k) (map fst b).
Definition number (c : list (str * node)) (k : string) (z : Z) : Prop :=
  exists s, member c k (Val VT_NUMBER s) /\ intIs s z.

(** The parameters of each command. *)
Inductive params (made : bool) : string -> list (str * node) -> cmd -> Prop :=
| pr_createFilter ps id t : number ps "id" id -> t <> FT_NONE ->
    member ps "type" (Val VT_STRING (lit (getFilterTypeAsString t))) ->
    params made "createFilter" ps (CreateFilter id t made)
| pr_createPath ps id org dst ow dr ms mids :
    number ps "id" id -> number ps "orgFilterId" org -> number ps "dstFilterId" dst ->
    number ps "orgWriterId" ow -> number ps "dstReaderId" dr ->
    member ps "midFiltersIds" (Arr ms) -> Forall2 (fun n z => exists s, n = Val VT_NUMBER s /\ intIs s z) ms mids ->
    params made "createPath" ps (CreatePath id org dst ow dr mids)
| pr_removePath ps id : number ps "id" id -> params made "removePath" ps (RemovePath id)
| pr_removeFilter ps id : number ps "id" id -> params made "removeFilter" ps (RemoveFilter id)
| pr_stop ps : params made "stop" ps Stop.

(** An event without "filterId" is a command for the pipeline; [made]: whether the
    environment lets a filter be created. *)
Definition means (made : bool) (ev : node) (c : cmd) : Prop :=
  exists m a ps, ev = Obj m /\ member m "action" (Val VT_STRING (lit a)) /\ member m "params" (Obj ps) /\
    ~ In (lit "filterId") (map fst m) /\ params made a ps c.

(** The commands of one request, one after the other. *)
Fixpoint commands (p : pipe) (es : nat -> cenv) (i : nat) (l : list cmd) : res (pipe * list bool) :=
  match l with
  | [] => Ok (p, [])
  | c :: t => do r <- pcmd p (penv (es i)) c;
              do r2 <- commands (fst r) es (S i) t;
              Ok (fst r2, snd r :: snd r2)
  end.

(** An answer reports, per command, "error": null exactly if the command succeeded. *)
Definition reports (out : list (str * node)) (answers : list bool) : Prop :=
  Forall2 (fun (kv : str * node) (a : bool) => fst kv = lit "error" /\ (snd kv = Val VT_NULL [] <-> a = true)) out answers.

(** A session: byte strings arriving on the control socket, interleaved with the filters'
    clean-up of closed connections. *)
Inductive session : parser -> pipe -> list (str * reply) -> Prop :=
| se_start : session newParser emptyPipe []
| se_message ps p h es m ps' p' r pushed : session ps p h -> serve ps p es m = Round ps' p' r pushed ->
    session ps' p' (h ++ [(m, r)])
| se_filters ps p h e c p' a : session ps p h -> pcmd p e c = Ok (p', a) -> session ps p' h.
