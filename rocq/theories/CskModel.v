(** Model of the control socket and the main loop: src/Controller.cpp 70-196 and
    tests/liveMediaStreamer.cpp 42-66, on top of the model of a message (CtlModel). And of the two
    objects of which there is one: Controller.cpp 34-62, PipelineManager.cpp 43-70.

    Simplified: clients are served in the order in which they connect; the descriptors left for
    connections are a fixed number; an answer is written whole. *)
From Coq Require Import Ascii String.
From Verif Require Import Base ZMap JsonModel NetModel PipeModel CtlModel.
Local Open Scope list_scope.

(** What a client does: it sends a message, of which [now] is there when it is read and [later] is
    not; it leaves without a word (read gives 0); its connection is lost (read gives -1); it is
    silent. [stays]: its end is still open when the answer is written. *)
Inductive talk := Sends (now later : str) | Leaves | Lost | Silent.
(** Model's own: a client. *)
Record client := mkCl { does : talk; stays : bool; world : nat -> cenv }.

(** Controller.hh 98-105; [held]: the connection sockets that were not closed. [room]: the
    descriptors for connections there are. [sigpipe]: whether writing to a connection nobody reads
    any more ends the program, which is so unless something has changed the signal's disposition. *)
Record server := mkSrv { par : parser; pip : pipe; held : nat }.
(** Controller.cpp 37-44, 70-98. *)
Definition newServer : server := mkSrv newParser emptyPipe 0.
(** Model's own: what the program may do, from the environment. *)
Record host := mkHost { room : nat; sigpipe : bool }.

(** What a client gets: an answer; nothing, at a connection that stays open; an answer written after
    it went; no connection. *)
Inductive got := Answered (text : str) | Unanswered | Unread | NotAccepted.

(** One round of the loop, liveMediaStreamer.cpp 51-62. [Hangs]: in read, Controller.cpp 146.
    [Ended]: by an exception, a defect or a signal. *)
Inductive turn := Goes (s : server) (g : got) | Hangs | Ended.

(** The end of processRequest, sendAndClose: Controller.cpp 181-196. *)
Definition answer (h : host) (stay : bool) (s : server) (text : str) : turn :=
  if stay then Goes s (Answered text)
  else if sigpipe h then Ended else Goes s Unread.

(** readAndParse and processRequest, Controller.cpp 141-179, of the bytes read. *)
Definition request (h : host) (c : client) (s : server) (m : str) : turn :=
  match serve (par s) (pip s) (world c) m with
  | Round ps p (Answer t) _ => answer h (stays c) (mkSrv ps p (held s)) t
  | Round ps p NoAnswer _ => Goes (mkSrv ps p (S (held s))) Unanswered
  | Terminated | Crashed _ | UndefinedParse => Ended
  end.

(** A client connects: listenSocket, Controller.cpp 100-133; accept fails without a descriptor. *)
Definition turnOf (h : host) (c : client) (s : server) : turn :=
  if Nat.leb (room h) (held s) then Goes s NotAccepted
  else match does c with
  | Sends now _ => request h c s now
  | Leaves => request h c s []
  | Lost => Goes (mkSrv (par s) (pip s) (S (held s))) Unanswered
  | Silent => Hangs
  end.

(** The loop, liveMediaStreamer.cpp 51-62: the server while it goes on, and what each client got; the
    list is as long as the loop went. *)
Fixpoint loop (h : host) (cs : list client) (s : server) : option server * list got :=
  match cs with
  | [] => (Some s, [])
  | c :: r => match turnOf h c s with
              | Goes s1 g => let '(o, gs) := loop h r s1 in (o, g :: gs)
              | Hangs | Ended => (None, [])
              end
  end.

(** htons, Controller.cpp 90: the port listened at, of the int given. *)
Definition listensAt (port : Z) : Z := (port mod 65536)%Z.

(** *** The two objects. [alive]: objects that exist; [pptr], [cptr]: the two static pointers; [cpipe]: the
    pipeline each controller object holds; [nxt]: the next object. *)
Record world2 := mkW { alive : list nat; pptr : option nat; cptr : option nat; cpipe : list (nat * nat); nxt : nat }.
(** Controller.cpp 34-35. *)
Definition world0 : world2 := mkW [] None None [] 0.
(** Model's own: what is asked for. [PipeOf] is Controller::getInstance()->pipelineManager(), Controller.cpp
    64-67. *)
Inductive ask := GetP | DestroyP | GetC | DestroyC | PipeOf.
(** Model's own: what is given: an object, nothing, or the program uses what is destroyed. *)
Inductive given := Object (o : nat) | Nothing | Freed.
(** PipelineManager.cpp 55-62, 43-47. *)
Definition getP (w : world2) : nat * world2 :=
  match pptr w with
  | Some o => (o, w)
  | None => (nxt w, mkW (nxt w :: alive w) (Some (nxt w)) (cptr w) (cpipe w) (S (nxt w)))
  end.
(** Controller.cpp 46-53, 37-44. *)
Definition getC (w : world2) : nat * world2 :=
  match cptr w with
  | Some o => (o, w)
  | None => let '(p, w) := getP w in
            (nxt w, mkW (nxt w :: alive w) (pptr w) (Some (nxt w)) ((nxt w, p) :: cpipe w) (S (nxt w)))
  end.
(** Model's own: delete. *)
Definition freed (o : nat) (w : world2) : option (list nat) :=
  if existsb (Nat.eqb o) (alive w) then Some (filter (fun x => negb (Nat.eqb o x)) (alive w)) else None.
(** PipelineManager.cpp 49-53, 64-70; Controller.cpp 46-62, where the pointer that is set to NULL is a
    variable of the function. *)
Definition asked (a : ask) (w : world2) : given * world2 :=
  match a with
  | GetP => let '(o, w) := getP w in (Object o, w)
  | GetC => let '(o, w) := getC w in (Object o, w)
  | PipeOf => let '(o, w) := getC w in
              if existsb (Nat.eqb o) (alive w) then
                match find (fun x => Nat.eqb o (fst x)) (cpipe w) with Some (_, p) => (Object p, w) | None => (Freed, w) end
              else (Freed, w)
  | DestroyP => match pptr w with
                | None => (Nothing, w)
                | Some o => match freed o w with
                            | Some l => (Nothing, mkW l None (cptr w) (cpipe w) (nxt w))
                            | None => (Freed, w)
                            end
                end
  | DestroyC => let '(o, w) := getC w in
                match freed o w with
                | Some l => (Nothing, mkW l (pptr w) (cptr w) (cpipe w) (nxt w))
                | None => (Freed, w)
                end
  end.
(** Model's own: one request after another. *)
Fixpoint askedAll (l : list ask) (w : world2) : list given * world2 :=
  match l with
  | [] => ([], w)
  | a :: r => let '(g, w) := asked a w in let '(gs, w) := askedAll r w in (g :: gs, w)
  end.
