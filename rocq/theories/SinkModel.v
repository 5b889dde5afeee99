(** Model of the transmitter's connection management: src/modules/transmitter/SinkManager.cpp and
    Connection.cpp, with the reader bookkeeping of BaseFilter (src/Filter.cpp 113-139, 620-629). live555 is
    represented by one boolean per request: whether opening sockets and sessions succeeds. shareReader, RTCP
    statistics and the frame loop (doProcessFrame 133-167) are not modelled here. *)
From Verif Require Import Base ZMap.
Local Open Scope list_scope.
Local Open Scope Z_scope.

(** What a reader's queue carries. [NoMedia]: neither a video nor an audio queue. *)
Inductive media := VH264 | VH265 | VVP8 | VOther | AAAC | AMP3 | AOther | NoMedia.
(** Model's own, of the queue's stream information. *)
Definition isVideo (m : media) : bool := match m with VH264 | VH265 | VVP8 | VOther => true | _ => false end.
(** Model's own, of the queue's stream information. *)
Definition isAudio (m : media) : bool := match m with AAAC | AMP3 | AOther => true | _ => false end.
(** Types.hh 89. *)
Inductive txformat := StdRtp | UltraGrid | MpegTs.

(** A connection object: [cused], the readers whose replicators it plays; [clisted], what getReaders returns. *)
Record conn := mkC { cobj : Z; cused : list Z; clisted : list Z }.
(** [srd]: the filter's readers, None for a null pointer; [ssrc]: sources and replicators, which always have the
    same keys, by object; [scon]: the connections; [snext], [ssnext]: the next connection and source object; [srel]: the connection objects
    destroyed, [sleak]: those forgotten without being destroyed; [sclosed]: the sources closed. *)
Record sinks := mkS { srd : zmap (option media); ssrc : zmap Z; scon : zmap conn; snext : Z; ssnext : Z; srel : list Z; sleak : list Z; sclosed : list Z }.
(** Model's own: the start, and how a request ends. *)
Definition newSinks : sinks := mkS [] [] [] 0 0 [] [] [].
(** Model's own: the start, and how a request ends. *)
Inductive res := Done (ok : bool) (s : sinks) | Crash.

(** getReader, Filter.cpp 113-121. *)
Definition getReader (r : Z) (s : sinks) : option media := match mfind r (srd s) with Some m => m | None => None end.

(** specificReaderConfig, createVideoQueueSource, createAudioQueueSource 412-465. A video codec without a source
    class leaves the maps as they are, so that a source left over from before passes the test. *)
Definition readerConfig (r : Z) (m : media) (s : sinks) : bool * sinks :=
  match m with
  | NoMedia => (false, s)
  | VOther => (mmem r (ssrc s), s)
  | _ => (true, mkS (srd s) (mset r (ssnext s) (ssrc s)) (scon s) (snext s) (ssnext s + 1) (srel s) (sleak s) (sclosed s))
  end.
(** setReader, Filter.cpp 123-139. *)
Definition addReader (maxReaders : Z) (r : Z) (m : media) (s : sinks) : res :=
  if (maxReaders <=? Z.of_nat (length (srd s))) || mmem r (srd s) then Done false s
  else let '(ok, s) := readerConfig r m s in
       Done ok (mkS (mset r (if ok then Some m else None) (srd s)) (ssrc s) (scon s) (snext s) (ssnext s) (srel s) (sleak s) (sclosed s)).

(** The second loop of removeConnectionByReaderId, 510-515: an absent identifier gives a null pointer, which
    delete accepts. *)
Fixpoint deleteConns (ids : list Z) (s : sinks) : sinks :=
  match ids with
  | [] => s
  | i :: r => let rel := match mfind i (scon s) with Some c => [cobj c] | None => [] end in
              deleteConns r (mkS (srd s) (ssrc s) (mdel i (scon s)) (snext s) (ssnext s) (srel s ++ rel) (sleak s) (sclosed s))
  end.
(** removeConnectionByReaderId 494-519. *)
Definition connsOf (r : Z) (s : sinks) : list Z :=
  flat_map (fun ic => flat_map (fun x => if x =? r then [fst ic] else []) (clisted (snd ic))) (scon s).
(** SinkManager.cpp 494-519. *)
Definition removeByReader (r : Z) (s : sinks) : bool * sinks :=
  let ids := connsOf r s in (match ids with [] => false | _ => true end, deleteConns ids s).
(** specificReaderDelete 122-131. *)
Definition readerDelete (r : Z) (s : sinks) : bool * sinks :=
  let '(ok, s) := removeByReader r s in
  match ok, mfind r (ssrc s) with
  | true, Some o => (true, mkS (srd s) (mdel r (ssrc s)) (scon s) (snext s) (ssnext s) (srel s) (sleak s) (sclosed s ++ [o]))
  | _, _ => (false, s)
  end.
(** deleteReader, Filter.cpp 620-629. *)
Definition deleteReader (r : Z) (s : sinks) : res :=
  match mfind r (srd s) with
  | None => Done false s
  | Some None => Crash
  | Some (Some _) => let '(ok, s) := readerDelete r (mkS (mdel r (srd s)) (ssrc s) (scon s) (snext s) (ssnext s) (srel s) (sleak s) (sclosed s)) in Done ok s
  end.

(** removeConnection 169-183. *)
Definition removeConnection (id : Z) (s : sinks) : res :=
  match mfind id (scon s) with
  | None => Done false s
  | Some c => Done true (mkS (srd s) (ssrc s) (mdel id (scon s)) (snext s) (ssnext s) (srel s ++ [cobj c]) (sleak s) (sclosed s))
  end.

(** The object is created, and kept under [id], destroyed or forgotten. *)
Definition keep (id : Z) (used listed : list Z) (s : sinks) : sinks :=
  mkS (srd s) (ssrc s) (mset id (mkC (snext s) used listed) (scon s)) (snext s + 1) (ssnext s) (srel s) (sleak s) (sclosed s).
(** Model's own: a connection object that is destroyed, or that nothing refers to any more. *)
Definition discard (s : sinks) : sinks := mkS (srd s) (ssrc s) (scon s) (snext s + 1) (ssnext s) (srel s ++ [snext s]) (sleak s) (sclosed s).
(** Model's own: a connection object that is destroyed, or that nothing refers to any more. *)
Definition forget (s : sinks) : sinks := mkS (srd s) (ssrc s) (scon s) (snext s + 1) (ssnext s) (srel s) (sleak s ++ [snext s]) (sclosed s).

(** The readers of an MPEG-TS multiplex: MpegTsConnection::getReaders, Connection.cpp 703-715, and
    MPEGTSQueueServerMediaSubsession::getReaderIds 46-58; -1 stands for none. *)
Definition tsListed (a v : Z) : list Z := (if a =? -1 then [] else [a]) ++ (if v =? -1 then [] else [v]).

(** addSubsessionByReader 462-491 and RTSPConnection::add*Subsession, Connection.cpp 92-226, for each reader in
    turn. *)
Fixpoint rtspRaw (rs : list Z) (listed : list Z) (s : sinks) : option (list Z) :=
  match rs with
  | [] => Some listed
  | r :: t => match getReader r s with
              | None => None
              | Some m => if negb (mmem r (ssrc s)) || existsb (Z.eqb r) listed || match m with VOther | NoMedia => true | _ => false end
                          then None else rtspRaw t (listed ++ [r]) s
              end
  end.
(** SinkManager.cpp 462-491. *)
Fixpoint rtspTs (rs : list Z) (a v : Z) (s : sinks) : option (Z * Z) :=
  match rs with
  | [] => Some (a, v)
  | r :: t => match getReader r s with
              | None => None
              | Some m =>
                  if negb (mmem r (ssrc s)) || existsb (Z.eqb r) (tsListed a v) then None
                  else match m with
                       | VH264 | VH265 => if v =? -1 then rtspTs t a r s else None
                       | AAAC | AMP3 => if a =? -1 then rtspTs t r v s else None
                       | _ => None
                       end
              end
  end.
(** addRTSPConnection 185-222. *)
Definition addRTSP (server ok : bool) (rs : list Z) (id : Z) (f : txformat) (s : sinks) : res :=
  if negb server then Done false s
  else match rs with [] => Done false s | _ =>
    if mmem id (scon s) then Done false s
    else match (match f with
                | MpegTs => match rtspTs rs (-1) (-1) s with Some (a, v) => Some (tsListed a v) | None => None end
                | _ => rtspRaw rs [] s
                end) with
         | None => Done false (discard s)
         | Some listed => if ok then Done true (keep id rs listed s) else Done false (discard s)
         end
    end.

(** addMpegTsRTPConnection 258-314: the loop over the readers; [a], [v] as in the object, [used] those added. *)
Fixpoint tsLoop (rs : list Z) (success hasV hasA : bool) (a v : Z) (used : list Z) (s : sinks) : bool * Z * Z * list Z :=
  match rs with
  | [] => (success, a, v, used)
  | r :: t =>
      match getReader r s with
      | None => tsLoop t success hasV hasA a v used s          (* excluded by addRTPConnection *)
      | Some m =>
          if negb (mmem r (ssrc s)) then tsLoop t success hasV hasA a v used s
          else if isVideo m && negb hasV then
            if match m with VH264 | VH265 => true | _ => false end && (v =? -1)
            then tsLoop t true true hasA a r (used ++ [r]) s else tsLoop t false true hasA a v used s
          else if isAudio m && negb hasA then
            if match m with AAAC | AMP3 => true | _ => false end && (a =? -1)
            then tsLoop t true hasV true r v (used ++ [r]) s else tsLoop t false hasV true a v used s
          else tsLoop t false hasV hasA a v used s
      end
  end.
(** addRTPConnection 224-256; addStdRTPConnection 316-360; addUltraGridRTPConnection 362-408. The single
    connection of the latter two takes the reader's replicator without looking whether there is one. [ok]:
    sockets opened, and for the standard format the port is even. *)
Definition addSingle (ok : bool) (r id : Z) (supported : media -> bool) (s : sinks) : res :=
  match getReader r s with
  | None => Done false s
  | Some NoMedia => Done false s
  | Some m => if negb (mmem r (ssrc s)) then Crash
              else if supported m && ok then Done true (keep id [r] [r] s) else Done false (discard s)
  end.
(** SinkManager.cpp 224-256. *)
Definition addRTP (ok : bool) (rs : list Z) (id : Z) (f : txformat) (s : sinks) : res :=
  if mmem id (scon s) then Done false s
  else if negb (forallb (fun r => match getReader r s with Some _ => true | None => false end) rs) then Done false s
  else match f with
       | StdRtp => match rs with [r] => addSingle ok r id (fun m => match m with VOther => false | _ => true end) s | _ => Done false s end
       | UltraGrid => match rs with [r] => addSingle ok r id (fun m => match m with VH264 | AMP3 => true | _ => false end) s | _ => Done false s end
       | MpegTs =>
           match rs with
           | [_] | [_; _] =>
               let '(success, a, v, used) := tsLoop rs false false false (-1) (-1) [] s in
               if negb success then Done false (forget s)
               else if ok then Done true (keep id used (tsListed a v) s) else Done false (discard s)
           | _ => Done false s
           end
       end.

(** The requests. *)
Inductive sop := OReader (r : Z) (m : media) | ODelReader (r : Z) | ORtsp (ok : bool) (rs : list Z) (id : Z) (f : txformat)
  | ORtp (ok : bool) (rs : list Z) (id : Z) (f : txformat) | ORemove (id : Z).
(** Model's own: a history of requests. *)
Definition sstep (server : bool) (maxReaders : Z) (o : sop) (s : sinks) : res :=
  match o with
  | OReader r m => addReader maxReaders r m s
  | ODelReader r => deleteReader r s
  | ORtsp ok rs id f => addRTSP server ok rs id f s
  | ORtp ok rs id f => addRTP ok rs id f s
  | ORemove id => removeConnection id s
  end.
(** Model's own: a history of requests. *)
Fixpoint srun (server : bool) (maxReaders : Z) (os : list sop) (s : sinks) : option sinks :=
  match os with [] => Some s | o :: r => match sstep server maxReaders o s with Done _ s => srun server maxReaders r s | Crash => None end end.
