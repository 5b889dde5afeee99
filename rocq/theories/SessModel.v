(* The receiver's register of sessions: adding, completing and removing them.

   Modelled:
     src/modules/receiver/SourceManager.cpp  lines 147-219 (addSession,
        removeSession, getSession, addSink), 292-361 (addSessionEvent),
        499-584 (createNew, createNewByURL, initiateSession, sendTeardown),
        586-603 (~Session), 605-618
     src/modules/receiver/Handlers.cpp  lines 46-142, 187-214, 225-290

   Simplifications.
   - Of a session only what the register depends on is kept: whether it has
     an RTSP client, whether its description is known, and the ports of its
     streams.  Of a port: whether its sink is still alive and whether an
     output is connected (RcvModel.v has the rest).
   - live555 and the network are oracles: whether a description parses and a
     stream initialises, and which ports an RTSP session gets.  The ports of
     an RTSP session are chosen by the operating system and are not in use.
   - Timers (the end of a stream, a broken server) and failing RTSP answers
     all end in shutdownStream: the one operation Shutdown. *)
From Coq Require Import ZArith List Bool.
From Verif Require Import ZMap JsonModel.
Import ListNotations.
Local Open Scope list_scope.
Local Open Scope Z_scope.

(* Session::client *)
Inductive clientE := NoClient | Live | Freed.

(* SourceManager.hh: Session and its StreamClientState. *)
Record sess := mkSess { client : clientE; described : bool; sports : list Z }.

(* An entry of SourceManager::sinks. *)
Record sinkE := mkSinkE { alive : bool; connected : bool }.

(* SourceManager.hh: sessionMap and sinks. *)
Record reg := mkReg { sessions : list (str * sess); sinks : zmap sinkE }.

(* SourceManager.cpp: the constructor leaves both empty. *)
Definition reg0 : reg := mkReg [] [].

Inductive outcome :=
| Done (r : reg) (b : bool)
| Crash.                        (* null or freed pointer *)

Fixpoint lookup (id : str) (l : list (str * sess)) : option sess :=
  match l with
  | [] => None
  | (k, v) :: r => if streq k id then Some v else lookup id r
  end.
(* Model's own: std::map::erase. *)
Definition without (id : str) (l : list (str * sess)) : list (str * sess) :=
  filter (fun p => negb (streq (fst p) id)) l.

(* SourceManager.cpp 147-156: sessionMap[id] = session *)
Definition store (id : str) (s : sess) (r : reg) : reg :=
  mkReg ((id, s) :: without id (sessions r)) (sinks r).

(* SourceManager.cpp 536-570: initiateSession with a description.  [ok p]:
   the stream at port p initialises; otherwise its source is NULL and line
   566 dereferences it. *)
Fixpoint initiate (ok : Z -> bool) (ps : list Z) (s : zmap sinkE) : option (zmap sinkE * bool) :=
  match ps with
  | [] => Some (s, true)
  | p :: r =>
    if ok p then
      match mfind p s with
      | Some _ => Some (s, false)
      | None => initiate ok r (mset p (mkSinkE true false) s)
      end
    else None
  end.

(* SourceManager.cpp 308-317 and 325-358 *)
Definition addStreams (id : str) (parses : bool) (ok : Z -> bool) (ps : list Z) (r : reg) : outcome :=
  match lookup id (sessions r) with
  | Some _ => Done r false
  | None =>
    if parses then
      let r1 := store id (mkSess NoClient true ps) r in
      match initiate ok ps (sinks r1) with
      | Some (s, b) => Done (mkReg (sessions r1) s) b
      | None => Crash
      end
    else Crash                          (* 506, 588: ~Session, session is NULL *)
  end.

(* SourceManager.cpp 308-324 and 354-358, 572-576; [made]: the client exists *)
Definition addUrl (id : str) (made : bool) (r : reg) : outcome :=
  match lookup id (sessions r) with
  | Some _ => Done r false
  | None => if made then Done (store id (mkSess Live false []) r) true else Done r false
  end.

(* Handlers.cpp 46-77, 99-142, 187-214: the description of an RTSP session
   arrives and its streams are set up at ports that are not in use *)
Fixpoint setup (ps : list Z) (s : zmap sinkE) : zmap sinkE :=
  match ps with
  | [] => s
  | p :: r => setup r (mset p (mkSinkE true false) s)
  end.
(* Handlers.cpp 46-77, 99-142, 187-214. *)
Definition describe (id : str) (ps : list Z) (r : reg) : outcome :=
  match lookup id (sessions r) with
  | Some s =>
    match client s, described s with
    | Live, false =>
      if forallb (fun p => negb (mmem p (sinks r))) ps
      then Done (store id (mkSess Live true ps) (mkReg (sessions r) (setup ps (sinks r)))) true
      else Done r false
    | _, _ => Done r false
    end
  | None => Done r false
  end.

(* Handlers.cpp 260-290: the sinks and the client are closed; the register
   is not told *)
Fixpoint killAll (ps : list Z) (s : zmap sinkE) : zmap sinkE :=
  match ps with
  | [] => s
  | p :: r => killAll r (match mfind p s with
                         | Some e => mset p (mkSinkE false (connected e)) s
                         | None => s
                         end)
  end.
(* Handlers.cpp 260-290. *)
Definition shutdown (id : str) (r : reg) : outcome :=
  match lookup id (sessions r) with
  | Some s =>
    match client s with
    | Live => Done (store id (mkSess Freed (described s) (sports s))
                          (mkReg (sessions r) (killAll (sports s) (sinks r)))) true
    | _ => Done r false
    end
  | None => Done r false
  end.

(* SourceManager.cpp 170-183: the loop of removeSession over the streams *)
Fixpoint closeAll (ps : list Z) (s : zmap sinkE) : option (zmap sinkE) :=
  match ps with
  | [] => Some s
  | p :: r =>
    match mfind p s with
    | None => closeAll r s
    | Some e =>
      if alive e then
        if connected e then None        (* sinks[port] is NULL: RcvModel.removePort *)
        else closeAll r (mdel p s)
      else None                         (* closed twice *)
    end
  end.

(* SourceManager.cpp 158-193 *)
Definition removeSession (id : str) (r : reg) : outcome :=
  match lookup id (sessions r) with
  | None => Done r false
  | Some s =>
    if described s then
      match closeAll (sports s) (sinks r) with
      | None => Crash
      | Some k =>
        match client s, sports s with
        | Live, _ | NoClient, [] => Done (mkReg (without id (sessions r)) k) true
        | NoClient, _ => Crash          (* 583: client is NULL *)
        | Freed, _ => Crash             (* 583 or 601: client was deleted *)
        end
      end
    else Crash                          (* 168: session is NULL *)
  end.

(* Model's own: a history of the register. *)
Definition setSink (p : Z) (f : sinkE -> sinkE) (r : reg) : outcome :=
  match mfind p (sinks r) with
  | Some e => Done (mkReg (sessions r) (mset p (f e) (sinks r))) true
  | None => Done r false
  end.

(* Connecting and disconnecting an output, and the BYE of a stream
   (Handlers.cpp 79-97), as far as the register sees them. *)
Inductive op :=
| AddStreams (id : str) (parses : bool) (ok : Z -> bool) (ps : list Z)
| AddUrl (id : str) (made : bool)
| Describe (id : str) (ps : list Z)
| Shutdown (id : str)
| Remove (id : str)
| Connect (p : Z)
| Disconnect (p : Z)
| Bye (p : Z).

(* Model's own: a history of the register. *)
Definition step (o : op) (r : reg) : outcome :=
  match o with
  | AddStreams id b ok ps => addStreams id b ok ps r
  | AddUrl id made => addUrl id made r
  | Describe id ps => describe id ps r
  | Shutdown id => shutdown id r
  | Remove id => removeSession id r
  | Connect p => setSink p (fun e => mkSinkE (alive e) true) r
  | Disconnect p => setSink p (fun e => mkSinkE (alive e) false) r
  | Bye p => setSink p (fun e => mkSinkE false (connected e)) r
  end.

(* Model's own: a history of the register. *)
Fixpoint run (ops : list op) (r : reg) : option reg :=
  match ops with
  | [] => Some r
  | o :: t => match step o r with Done r' _ => run t r' | Crash => None end
  end.

(* Handlers.cpp 170-176 and 248-257: the delay, in microseconds, before the
   first and before every further keep-alive request, for a server timeout
   in seconds (0: not given).  unsigned * int is computed in 32 bits. *)
Definition U32 : Z := 4294967296.
(* Handlers.cpp 170-176, 248-257. *)
Definition delayFor (t : Z) : Z := ((if t <=? 5 then 1 else t - 5) * 1000000) mod U32.
(* Handlers.cpp 170-176. *)
Definition firstKeepAlive (t : Z) : Z := delayFor (if t =? 0 then 60 else t).
(* Handlers.cpp 248-257. *)
Definition nextKeepAlive (t : Z) : Z := delayFor (if t =? 0 then 30 else t).
