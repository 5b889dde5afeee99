(** Model of the control interface: Controller::readAndParse and processRequest
    (src/Controller.cpp 141-179), PipelineManager::processEvent and the events it decodes
    (src/PipelineManager.cpp 537-731), the loop of tests/liveMediaStreamer.cpp 51-62.

    Simplified: the two error texts of createPath are one; sockets (read() delivers the whole
    message; a failing write or close is ignored); the delay and contents of events for
    filters are only recorded (see EventModel for the queue they enter). *)
From Coq Require Import Ascii String.
From Verif Require Import Base ZMap JsonModel NetModel PipeModel NamesModel.
Local Open Scope list_scope.

(** Object::Get / Has, 609-640: the first child of that name. *)
Fixpoint child (name : str) (c : list (str * node)) : option node :=
  match c with [] => None | (k, v) :: t => if streq k name then Some v else child name t end.
(** Jzon.cpp 609-640, by a literal name. *)
Definition get (name : string) (c : list (str * node)) : option node := child (lit name) c.

(** operator>>(int&) on the text of a number: optional '-', digits, up to the first other
    character; 0 if there is no digit, the nearest int if out of range. *)
Definition digit (c : ascii) : option Z :=
  let n := Z.of_N (N_of_ascii c) in if ((48 <=? n) && (n <=? 57))%Z then Some (n - 48)%Z else None.
(** Model's own: the digits of operator>>(int&) (library). *)
Fixpoint digitsFrom (acc : Z) (s : str) : Z :=
  match s with
  | [] => acc
  | c :: t => match digit c with Some d => digitsFrom (10 * acc + d) t | None => acc end
  end.
(** limits.h. *)
Definition INT_MAX : Z := 2147483647.
(** limits.h. *)
Definition INT_MIN : Z := -2147483648.
(** operator>>(int&) (library), Jzon.cpp 276-291. *)
Definition toIntText (s : str) : Z :=
  match s with
  | [] => 0
  | c :: t =>
      if is c "-" then Z.max INT_MIN (- digitsFrom 0 t) else Z.min INT_MAX (digitsFrom 0 s)
  end.

(** operator<<(int): decimal. *)
Definition digitChar (d : Z) : ascii := ascii_of_N (Z.to_N (48 + d)).
(** Model's own: the digits of operator<<(int) (library). *)
Fixpoint decimal (fuel : nat) (n : Z) : str :=
  match fuel with
  | O => []
  | S f => if (n <? 10)%Z then [digitChar n] else decimal f (n / 10) ++ [digitChar (n mod 10)]
  end.
(** operator<<(int) (library), Jzon.cpp 366-372. *)
Definition intText (z : Z) : str := if (z <? 0)%Z then "-"%char :: decimal 20 (- z) else decimal 20 z.

(** Node::ToInt: Value::ToInt 264-281; everything else throws. [None]: an exception. *)
Definition toInt (n : node) : option Z :=
  match n with
  | Val VT_NULL _ => Some 0%Z
  | Val VT_NUMBER s => Some (toIntText s)
  | _ => None
  end.
(** Node::ToString. *)
Definition nodeText (n : node) : option str := match n with Val t s => Some (toString t s) | _ => None end.
(** Jzon.h 148. *)
Definition isNum (n : node) : bool := match n with Val VT_NUMBER _ => true | _ => false end.

(** What an event asks for. *)
Inductive decoded :=
| DCmd (c : cmd) (failure : string)
| DState
| DError (text : string)
| DThrow.

(** PipelineManager.cpp 599-602: ToInt of each filter of a path. *)
Fixpoint toInts (l : list node) : option (list Z) :=
  match l with
  | [] => Some []
  | n :: t => match toInt n, toInts t with Some z, Some r => Some (z :: r) | _, _ => None end
  end.

(** createFilterEvent 537-566; [made]: the filter class can be instantiated. *)
Definition decodeCreateFilter (made : bool) (p : list (str * node)) : decoded :=
  match get "id" p, get "type" p with
  | Some i, Some t =>
      if negb (isNum i) then DError "Error creating filter. ID must be numeric..."
      else match toInt i, nodeText t with
           | Some id, Some tx =>
               DCmd (CreateFilter id (getFilterTypeFromString (string_of_list_ascii tx)) made) "Error creating filter."
           | _, _ => DThrow
           end
  | _, _ => DError "Error creating filter. Invalid JSON format..."
  end.

(** createPathEvent 568-615. *)
Definition decodeCreatePath (p : list (str * node)) : decoded :=
  match get "id" p, get "orgFilterId" p, get "dstFilterId" p, get "orgWriterId" p, get "dstReaderId" p with
  | Some i, Some o, Some d, Some w, Some r =>
      match toInt i, toInt o, toInt d, toInt w, toInt r with
      | Some i, Some o, Some d, Some w, Some r =>
          match get "midFiltersIds" p with
          | Some (Arr l) =>
              match toInts l with
              | Some ms => DCmd (CreatePath i o d w r ms) "Error creating path. Check introduced filter IDs..."
              | None => DThrow
              end
          | _ => DError "Invalid midfilters array"
          end
      | _, _, _, _, _ => DThrow
      end
  | _, _, _, _, _ => DError "Error creating path. Invalid JSON format..."
  end.

(** removePathEvent 617-639, removeFilterEvent 641-663. *)
Definition decodeId (what : Z -> cmd) (bad fail : string) (p : list (str * node)) : decoded :=
  match get "id" p with
  | Some n => if isNum n then match toInt n with Some id => DCmd (what id) fail | None => DThrow end else DError bad
  | None => DError bad
  end.

(** The internal actions, 700-718. *)
Definition decode (made : bool) (action : str) (p : list (str * node)) : decoded :=
  if streq action (lit "getState") then DState
  else if streq action (lit "createPath") then decodeCreatePath p
  else if streq action (lit "removePath") then
    decodeId RemovePath "Error removing path. Invalid JSON format..." "Error removing path. Internal error..." p
  else if streq action (lit "createFilter") then decodeCreateFilter made p
  else if streq action (lit "removeFilter") then
    decodeId RemoveFilter "Error removing filter. Invalid JSON format..." "Error removing filter. Internal error..." p
  else if streq action (lit "stop") then DCmd Stop "Error stopping pipe. Internal error..."
  else DError "Error processing internal event. Invalid action...".

(** What the environment decides for one event. *)
Record cenv := mkCenv {
  penv : env;
  cmade : bool;
  cstate : pipe -> list (str * node)     (* the "filters" and "paths" of getState *)
}.

Inductive outc :=
| Done (p : pipe) (out : list (str * node)) (pushed : list (Z * list (str * node)))
| Thrown                                  (* an exception nobody catches: the program ends *)
| Bugged (b : bug).

(** The error node of an answer, e.g. PipelineManager.cpp 561-563. *)
Definition err (text : string) : list (str * node) := [(lit "error", Val VT_STRING (lit text))].
(** The error node of an answer, e.g. PipelineManager.cpp 561-563. *)
Definition noErr : list (str * node) := [(lit "error", Val VT_NULL [])].

(** processEvent 675-719 with processFilterEvent 721-729. *)
Definition processEvent (p : pipe) (e : cenv) (event : node) (out : list (str * node)) (pushed : list (Z * list (str * node))) : outc :=
  match event with
  | Obj c =>
      match get "action" c, get "params" c with
      | Some a, Some ps =>
          let internal :=
            match nodeText a, ps with
            | Some action, Obj params =>
                match decode (cmade e) action params with
                | DThrow => Thrown
                | DError t => Done p (out ++ err t) pushed
                | DState => Done p (out ++ cstate e p) pushed
                | DCmd cm fail =>
                    match pcmd p (penv e) cm with
                    | Bad b => Bugged b
                    | Ok (p', true) => Done p' (out ++ noErr) pushed
                    | Ok (p', false) => Done p' (out ++ err fail) pushed
                    end
                end
            | _, _ => Thrown
            end in
          match get "filterId" c with
          | Some (Val VT_NUMBER s) =>
              let f := toIntText s in
              if mmem f (pfilters p) then Done p (out ++ noErr) (pushed ++ [(f, c)])
              else Done p (out ++ err "Error while processing event. There is no filter with this ID...") pushed
          | _ => internal
          end
      | _, _ => Done p (out ++ err "Error processing filter event. Invalid JSON format...") pushed
      end
  | _ => Thrown                           (* Object(const Node&), 548-560 *)
  end.

(** The events of one request, each with its own environment. *)
Fixpoint processAll (p : pipe) (es : nat -> cenv) (i : nat) (events : list node) (out : list (str * node)) (pushed : list (Z * list (str * node))) : outc :=
  match events with
  | [] => Done p out pushed
  | ev :: t => match processEvent p (es i) ev out pushed with
               | Done p' out' pu => processAll p' es (S i) t out' pu
               | r => r
               end
  end.

(** processRequest, Controller.cpp 161-179. *)
Definition processRequest (p : pipe) (es : nat -> cenv) (root : node) : outc :=
  match root with
  | Obj c =>
      match get "events" c with
      | Some (Arr events) => processAll p es 0 events [] []
      | _ => Done p (err "Invalid JSON, missing 'events' tag") []
      end
  | _ => Thrown
  end.

(** inBuffer as a C string: at most MSG_BUFFER_MAX_LENGTH - 1 bytes, up to the first zero byte. *)
Definition MSG_MAX : N := 16383.
(** Controller.cpp 151: SetJson takes a C string. *)
Fixpoint cstr (s : str) : str :=
  match s with [] => [] | c :: t => if is c "000" then [] else c :: cstr t end.
(** Controller.cpp 143-151. *)
Definition inBuffer (m : str) : str := cstr (firstn (N.to_nat MSG_MAX) m).

(** One round of the main loop: a message arrives on a new connection. *)
Inductive reply := Answer (text : str) | NoAnswer.     (* NoAnswer: the connection is neither answered nor closed *)
Inductive round :=
| Round (ps : parser) (p : pipe) (r : reply) (pushed : list (Z * list (str * node)))
| Terminated
| Crashed (b : bug)
| UndefinedParse.
(** Controller.cpp 141-179 and main.cpp's loop. *)
Definition serve (ps : parser) (p : pipe) (es : nat -> cenv) (m : str) : round :=
  match parse ps (Obj []) (inBuffer m) with
  | Undefined => UndefinedParse
  | Failed ps' _ => Round ps' p NoAnswer []
  | Parsed ps' root =>
      match processRequest p es root with
      | Done p' out pushed => Round ps' p' (Answer (write NoFormat (Obj out))) pushed
      | Thrown => Terminated
      | Bugged b => Crashed b
      end
  end.
