(** Model of the names of RTSP connections: RTSPConnection, src/modules/transmitter/Connection.cpp 70-90, 228-302,
    and the connections of SinkManager, src/modules/transmitter/SinkManager.cpp 169-222, 494-519, 643-711.

    The server of live555 is represented by its documented contract. It has a table of sessions by name.
    addServerMediaSession first removes the session the table has under the name, then enters the new one.
    removeServerMediaSession deletes the table's entry of the session's name, whichever session it leads to, and
    destroys the session if no client uses it; otherwise it marks it. When the last client of a marked session
    leaves, the session is removed in the same way. deleteServerMediaSession makes all clients of the session leave
    and removes it. Clients come and go in the event loop, between requests (both run in the thread of the filter).

    Simplifications: connections other than RTSP, which never come into contact with the table, are left out; the
    readers of a connection are kept with it although the code reads them from the session, so reading them is a
    use of the session; whether the readers of a request are acceptable (SinkModel, [addRTSP]) is given from
    outside; the server exists; names have no zero byte; the memory of a destroyed session is not used again. *)
From Coq Require Import String.
From Verif Require Import Base ZMap.
Local Open Scope list_scope.
Local Open Scope Z_scope.

(** A session object: its name, the clients using it, whether it is marked, whether it exists. *)
Record session := mkSes { sname : string; sclients : Z; smarked : bool; salive : bool }.
(** A connection: its session, the name it was given, its readers. *)
Record rconn := mkCon { csess : Z; cname : string; creads : list Z }.
(** [rtab]: the server's table; [rses]: the session objects; [rcon]: the map [connections]; [rnext]: the next object. *)
Record rts := mkR { rtab : list (string * Z); rses : zmap session; rcon : zmap rconn; rnext : Z }.
(** Model's own: the start and field updates. *)
Definition newRts : rts := mkR [] [] [] 1.
(** Model's own: the start and field updates. *)
Definition withTab (s : rts) (t : list (string * Z)) : rts := mkR t (rses s) (rcon s) (rnext s).
(** Model's own: the start and field updates. *)
Definition withSes (s : rts) (m : zmap session) : rts := mkR (rtab s) m (rcon s) (rnext s).
(** Model's own: the start and field updates. *)
Definition withCon (s : rts) (m : zmap rconn) : rts := mkR (rtab s) (rses s) m (rnext s).

(** The table of live555: Lookup, Remove, Add. *)
Fixpoint lookup (n : string) (t : list (string * Z)) : option Z :=
  match t with [] => None | (m, o) :: t => if String.eqb n m then Some o else lookup n t end.
(** HashTable::Remove (live555). *)
Fixpoint tabRemove (n : string) (t : list (string * Z)) : list (string * Z) :=
  match t with [] => [] | (m, o) :: t => if String.eqb n m then tabRemove n t else (m, o) :: tabRemove n t end.

(** A session that exists; None: it was destroyed. *)
Definition use (o : Z) (s : rts) : option session :=
  match mfind o (rses s) with Some x => if salive x then Some x else None | None => None end.
(** Model's own: the start and field updates. *)
Definition setSes (o : Z) (x : session) (s : rts) : rts := withSes s (mset o x (rses s)).
(** removeServerMediaSession of live555. *)
Definition removeSession (o : Z) (s : rts) : option rts :=
  match use o s with
  | None => None
  | Some x => let s := withTab s (tabRemove (sname x) (rtab s)) in
              Some (setSes o (if sclients x =? 0 then mkSes (sname x) 0 (smarked x) false else mkSes (sname x) (sclients x) true true) s)
  end.
(** One client leaves: the destructor of the client session in live555. *)
Definition leave (o : Z) (s : rts) : option rts :=
  match use o s with
  | None => None
  | Some x => if sclients x <=? 0 then Some s
              else let s := setSes o (mkSes (sname x) (sclients x - 1) (smarked x) true) s in
                   if (sclients x =? 1) && smarked x then removeSession o s else Some s
  end.
(** All clients of a session leave; if it is marked it is removed with the last. *)
Definition leaveAll (o : Z) (s : rts) : option rts :=
  match use o s with
  | None => None
  | Some x => if sclients x <=? 0 then Some s
              else let s := setSes o (mkSes (sname x) 0 (smarked x) true) s in
                   if smarked x then removeSession o s else Some s
  end.
(** deleteServerMediaSession of live555. *)
Definition deleteSession (o : Z) (s : rts) : option rts :=
  match leaveAll o s with None => None | Some s => removeSession o s end.
(** addServerMediaSession of live555. *)
Definition addSession (o : Z) (s : rts) : option rts :=
  match use o s with
  | None => None
  | Some x =>
      match (match lookup (sname x) (rtab s) with None => Some s | Some o' => removeSession o' s end) with
      | None => None
      | Some s => Some (withTab s ((sname x, o) :: tabRemove (sname x) (rtab s)))
      end
  end.

(** Model's own: how an operation ends. *)
Inductive result := Done (ok : bool) (s : rts) | Crash.
(** Model's own: how an operation ends. *)
Definition done (ok : bool) (o : option rts) : result := match o with Some s => Done ok s | None => Crash end.

(** addRTSPConnection, SinkManager.cpp 185-222, with Connection.cpp 70-85 (constructor), 87-90 (destructor), startPlaying
    242-263 and stopPlaying 265-281. [valid]: there are readers and each gives a subsession. *)
Definition addConnection (valid : bool) (id : Z) (n : string) (rs : list Z) (s : rts) : result :=
  match rs with
  | [] => Done false s
  | _ =>
      if mmem id (rcon s) then Done false s
      else
        let o := rnext s in
        let s := mkR (rtab s) (mset o (mkSes n 0 false true) (rses s)) (rcon s) (o + 1) in
        if valid
        then done true (match addSession o s with
                        | None => None
                        | Some s => Some (withCon s (mset id (mkCon o n rs) (rcon s)))
                        end)
        else done false (deleteSession o s)
  end.
(** removeConnection, SinkManager.cpp 169-183. *)
Definition removeConnection (id : Z) (s : rts) : result :=
  match mfind id (rcon s) with
  | None => Done false s
  | Some c => done true (deleteSession (csess c) (withCon s (mdel id (rcon s))))
  end.
(** removeConnectionByReaderId, SinkManager.cpp 494-519: the first loop, over the connections; it answers those to delete. *)
Fixpoint stopReader (r : Z) (cs : list (Z * rconn)) (s : rts) : option (list Z * rts) :=
  match cs with
  | [] => Some ([], s)
  | (id, c) :: cs =>
      match use (csess c) s with                              (* getReaders, Connection.cpp 283-302 *)
      | None => None
      | Some _ =>
          if existsb (Z.eqb r) (creads c)
          then match deleteSession (csess c) s with
               | None => None
               | Some s => match stopReader r cs s with None => None | Some (ids, s) => Some (id :: ids, s) end
               end
          else stopReader r cs s
      end
  end.
(** SinkManager.cpp 494-519. *)
Definition removeByReader (r : Z) (s : rts) : result :=
  match stopReader r (rcon s) s with
  | None => Crash
  | Some (ids, s) => Done (match ids with [] => false | _ => true end) (withCon s (fold_left (fun m id => mdel id m) ids (rcon s)))
  end.
(** doGetState, SinkManager.cpp 643-711: name, the name in the URI (getURI, Connection.cpp 228-239) and readers of each connection.
    None: a destroyed session is used. *)
Fixpoint stateOf (cs : list (Z * rconn)) (s : rts) : option (list (string * string * list Z)) :=
  match cs with
  | [] => Some []
  | (_, c) :: cs =>
      match use (csess c) s, stateOf cs s with
      | Some x, Some l => Some ((cname c, sname x, creads c) :: l)
      | _, _ => None
      end
  end.
(** SinkManager.cpp 643-711. *)
Definition getState (s : rts) := stateOf (rcon s) s.

(** Requests and clients. A client that joins names a stream. A client leaving a session that is not there is no
    event (clients leave before their session is destroyed). *)
Inductive op := Add (valid : bool) (id : Z) (n : string) (rs : list Z) | Remove (id : Z) | RemoveReader (r : Z) | State | Join (n : string) | Leave (o : Z).
(** Model's own: a history of requests and clients. *)
Definition step (o : op) (s : rts) : result :=
  match o with
  | Add v id n rs => addConnection v id n rs s
  | Remove id => removeConnection id s
  | RemoveReader r => removeByReader r s
  | State => match getState s with None => Crash | Some _ => Done true s end
  | Join n => match lookup n (rtab s) with
              | None => Done false s
              | Some o => match use o s with
                          | None => Crash
                          | Some x => Done true (setSes o (mkSes (sname x) (sclients x + 1) (smarked x) true) s)
                          end
              end
  | Leave o => match use o s with None => Done false s | Some _ => done true (leave o s) end
  end.
(** Model's own: a history of requests and clients. *)
Fixpoint run (os : list op) (s : rts) : option rts :=
  match os with [] => Some s | o :: os => match step o s with Done _ s => run os s | Crash => None end end.
