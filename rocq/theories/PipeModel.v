(** Model of PipelineManager (src/PipelineManager.cpp) and Path (src/Path.cpp): the
    filter and path tables, connecting and deleting paths, stop.

    Every filter and path object gets a fresh number when it is created; [goneF] and
    [goneP] log the deletions. The commands come from one control thread. JSON
    decoding of the commands is not modelled here. pool->removeTask only needs
    the pool to exist (see PoolModel for what it does). *)
From Verif Require Import Base ZMap NetModel.

(** The filter classes createFilter knows (118-173) and how many readers and writers their
    constructors declare (Filter.cpp 750-864, MAX_READERS/WRITERS = 16 in Filter.hh 41-42). *)
Inductive ftype :=
| RECEIVER | TRANSMITTER | DEMUXER | VIDEO_DECODER | VIDEO_ENCODER | VIDEO_RESAMPLER | VIDEO_MIXER
| AUDIO_DECODER | AUDIO_ENCODER | AUDIO_MIXER | DASHER | VIDEO_SPLITTER | V4L_CAPTURE | SHARED_MEMORY
| FT_NONE.
(** Filter.cpp 750-864, Filter.hh 41-42. *)
Definition limits (t : ftype) : nat * nat :=
  match t with
  | RECEIVER | DEMUXER => (0, 16)
  | TRANSMITTER | DASHER => (16, 0)
  | VIDEO_DECODER | VIDEO_ENCODER | VIDEO_RESAMPLER | AUDIO_DECODER | AUDIO_ENCODER | SHARED_MEMORY => (1, 1)
  | VIDEO_MIXER | AUDIO_MIXER => (16, 1)
  | VIDEO_SPLITTER => (1, 16)
  | V4L_CAPTURE => (0, 1)
  | FT_NONE => (0, 0)
  end.

(** Path, Path.hh / Path.cpp 26-36. *)
Record path := mkPath {
  pobj : nat;
  porg : Z; pdst : Z;          (* originFilterID, destinationFilterID *)
  pow : Z; pdr : Z;            (* orgWriterID, dstReaderID *)
  pmid : list Z                (* filterIDs *)
}.

Record pipe := mkPipe {
  pnet : net;
  ppaths : zmap path;
  ppool : bool;                (* pool != NULL *)
  pnext : nat;                 (* next object number *)
  goneF : list nat;            (* deleted filter objects, newest first *)
  goneP : list nat             (* deleted Path objects, newest first *)
}.

(** Model's own: field access and update. *)
Definition pfilters (p : pipe) : zmap filt := fs (pnet p).
(** Model's own: field access and update. *)
Definition withNet (p : pipe) (n : net) : pipe := mkPipe n (ppaths p) (ppool p) (pnext p) (goneF p) (goneP p).

(** createFilter 118-181 and addFilter 183-210; [made]: the class's createNew did not
    answer NULL. *)
Definition createFilter (p : pipe) (id : Z) (t : ftype) (made : bool) : pipe * bool :=
  if (id <? 0)%Z || mmem id (pfilters p) then (p, false)
  else match t with
  | FT_NONE => (p, false)
  | _ => if made then
      let n := pnet p in
      (mkPipe (mkNet (mset id (mkF (pnext p) (fst (limits t)) (snd (limits t)) [] []) (fs n)) (rds n) (qs n))
         (ppaths p) true (S (pnext p)) (goneF p) (goneP p), true)
    else (p, false)
  end.

(** Duplicates in the list of mid filters (255-261). *)
Fixpoint dup (l : list Z) : bool :=
  match l with [] => false | a :: t => existsb (Z.eqb a) t || dup t end.

(** createPath, 231-284. *)
Definition createPath (p : pipe) (e : env) (id org dst ow dr : Z) (mids : list Z) : res (pipe * bool) :=
  if mmem id (ppaths p) then Ok (p, false)
  else if negb (mmem org (pfilters p)) then Ok (p, false)
  else if negb (mmem dst (pfilters p)) then Ok (p, false)
  else if existsb (fun m => negb (mmem m (pfilters p)) || (m =? org)%Z || (m =? dst)%Z) mids then Ok (p, false)
  else if dup mids then Ok (p, false)
  else
  do ow' <- (if (ow <? 0)%Z then generateWriterID (pnet p) e org else Ok ow);
  do dr' <- (if (dr <? 0)%Z then generateReaderID (pnet p) e dst else Ok dr);
  Ok (mkPipe (pnet p) (mset id (mkPath (pnext p) org dst ow' dr' mids) (ppaths p)) (ppool p) (S (pnext p))
        (goneF p) (goneP p), true).

(** validCData 355-373, for the connection data of a connected queue. *)
Fixpoint readersValid (n : net) (dst : Z) (l : list (Z * Z)) : res bool :=
  match l with
  | [] => Ok true
  | (rf, rr) :: t =>
      if (rf =? dst)%Z || negb (mmem rf (fs n)) then Ok false
      else do c <- isRConnected n rf rr;
           if c then readersValid n dst t else Ok false
  end.
(** PipelineManager.cpp 355-373 *)
Definition validCData (n : net) (q : queueo) (org dst : Z) : res bool :=
  if negb (org =? fst (qwr q))%Z then Ok false
  else do v <- readersValid n dst (qrd q);
  if negb v then Ok false
  else if mmem (fst (qwr q)) (fs n) then isWConnected n (fst (qwr q)) (snd (qwr q)) else Ok false.

(** handleGrouping 337-353: the destination shares the reader that already serves the
    writer. getWConnectionData (63-73) is the queue's connection data. *)
Definition handleGrouping (n : net) (e : env) (org dst ow dr : Z) : res (net * bool) :=
  do x <- getF n org;
  match mfind ow (fwr x) with
  | None => Ok (n, false)
  | Some p =>
      do c <- ptrConnected n p;
      if negb c then Ok (n, false)
      else match p with
      | None => Ok (n, false)
      | Some q =>
          do k <- getQ n q;
          do v <- validCData n k org dst;
          if negb v then Ok (n, false)
          else match qrd k with
               | [] => Bad NullDeref                         (* front() of an empty list *)
               | (rf, rr) :: _ => shareReader n e rf rr dst dr
               end
      end
  end.

(** The loop 318-323 over consecutive mid filters (connectOneToOne, 366-371). *)
Fixpoint chain (n : net) (e : env) (l : list Z) : res (net * bool) :=
  match l with
  | a :: ((b :: _) as t) =>
      do w <- generateWriterID n e a;
      do r <- generateReaderID n e b;
      do (n1, ok) <- connect n e a w b r;
      if ok then chain n1 e t else Ok (n1, false)
  | _ => Ok (n, true)
  end.

(** connectPath, 287-335. *)
Definition connectPath (n : net) (e : env) (p : path) : res (net * bool) :=
  if negb (forallb (fun m => mmem m (fs n)) (pmid p)) then Ok (n, false)
  else match pmid p with
  | [] =>
      do (n1, ok) <- connect n e (porg p) (pow p) (pdst p) (pdr p);
      if ok then Ok (n1, true) else handleGrouping n1 e (porg p) (pdst p) (pow p) (pdr p)
  | m :: _ =>
      do r <- generateReaderID n e m;
      do (n1, ok) <- connect n e (porg p) (pow p) m r;
      do (n2, ok2) <- (if ok then Ok (n1, true) else handleGrouping n1 e (porg p) m (pow p) DEFAULT_ID);
      if negb ok2 then Ok (n2, false)
      else
      do (n3, ok3) <- chain n2 e (pmid p);
      if negb ok3 then Ok (n3, false)
      else
      do w <- generateWriterID n3 e (last (pmid p) 0%Z);
      connect n3 e (last (pmid p) 0%Z) w (pdst p) (pdr p)
  end.

(** createPathEvent, 568-615, after the parameters were decoded. *)
Definition createPathEvent (p : pipe) (e : env) (id org dst ow dr : Z) (mids : list Z) : res (pipe * bool) :=
  do (p1, ok) <- createPath p e id org dst ow dr mids;
  if negb ok then Ok (p1, false)
  else match mfind id (ppaths p1) with
       | None => Ok (p1, false)
       | Some pa => do (n, c) <- connectPath (pnet p1) e pa; Ok (withNet p1 n, c)
       end.

(** Path::hasFilter, Path.cpp 50-62. *)
Definition hasFilter (pa : path) (f : Z) : bool :=
  existsb (Z.eqb f) (pmid pa) || (f =? porg pa)%Z || (f =? pdst pa)%Z.

(** A Path object that was deleted must not be read. *)
Definition pathLive (p : pipe) (pa : path) : bool := negb (existsb (Nat.eqb (pobj pa)) (goneP p)).

(** The loop over all paths in removeFilter (391-414) and deletePath (459-469): whether a
    path other than [skip] has the filter. *)
Fixpoint usedBy (p : pipe) (l : zmap path) (skip : option Z) (f : Z) : res bool :=
  match l with
  | [] => Ok false
  | (i, pa) :: t =>
      if match skip with Some s => (i =? s)%Z | None => false end then usedBy p t skip f
      else if negb (pathLive p pa) then Bad PathUseAfterFree
      else if hasFilter pa f then do _ <- usedBy p t skip f; Ok true
      else usedBy p t skip f
  end.

(** pool->removeTask(id); delete filters[id]; filters.erase(id). *)
Definition dropFilter (p : pipe) (f : Z) : res pipe :=
  if negb (ppool p) then Bad NullDeref
  else match mfind f (pfilters p) with
  | None => Ok p                                    (* filters[id] inserts NULL; delete NULL; erase *)
  | Some x =>
      if existsb (Nat.eqb (fobj x)) (goneF p) then Bad DoubleFree
      else do n <- destroyFilter (pnet p) f;
           Ok (mkPipe n (ppaths p) (ppool p) (pnext p) (fobj x :: goneF p) (goneP p))
  end.

(** removeFilter, 391-414. *)
Definition removeFilter (p : pipe) (f : Z) : res (pipe * bool) :=
  match mfind f (pfilters p) with
  | None => Ok (p, false)
  | Some _ =>
      do u <- usedBy p (ppaths p) None f;
      if u then Ok (p, false)
      else do p1 <- dropFilter p f; Ok (p1, true)
  end.

(** The mid filters, last first (443-449). *)
Fixpoint dropMids (p : pipe) (e : env) (l : list Z) : res pipe :=
  match l with
  | [] => Ok p
  | m :: t =>
      do (n, _) <- disconnectReader (pnet p) e m DEFAULT_ID;
      do p1 <- dropFilter (withNet p n) m;
      dropMids p1 e t
  end.

(** deletePath, 416-482. *)
Definition deletePath (p : pipe) (e : env) (id : Z) : res (pipe * bool) :=
  match mfind id (ppaths p) with
  | None => Ok (p, false)
  | Some pa =>
      if negb (pathLive p pa) then Bad PathUseAfterFree
      else if negb (mmem (porg pa) (pfilters p)) || negb (mmem (pdst pa) (pfilters p)) then Ok (p, false)
      else if negb (forallb (fun m => mmem m (pfilters p)) (pmid pa)) then Ok (p, false)
      else
      do (n1, ok) <- disconnectReader (pnet p) e (pdst pa) (pdr pa);
      if negb ok then Ok (withNet p n1, false)
      else
      do p2 <- dropMids (withNet p n1) e (rev (pmid pa));
      do uo <- usedBy p2 (ppaths p2) (Some id) (porg pa);
      do ud <- usedBy p2 (ppaths p2) (Some id) (pdst pa);
      do p3 <- (if ud then Ok p2 else dropFilter p2 (pdst pa));
      do p4 <- (if uo then Ok p3 else dropFilter p3 (porg pa));
      Ok (mkPipe (pnet p4) (ppaths p4) (ppool p4) (pnext p4) (goneF p4) (pobj pa :: goneP p4), true)
  end.

(** removePath, 375-389: an unknown path is reported as success. *)
Definition removePath (p : pipe) (e : env) (id : Z) : res (pipe * bool) :=
  if negb (mmem id (ppaths p)) then Ok (p, true)
  else
  do (p1, ok) <- deletePath p e id;
  if ok then Ok (mkPipe (pnet p1) (mdel id (ppaths p1)) (ppool p1) (pnext p1) (goneF p1) (goneP p1), true)
  else Ok (p1, false).

(** stop, 72-105: the loop over the paths, then the loop over the filters. *)
Fixpoint stopPaths (p : pipe) (e : env) (l : list Z) : res (pipe * bool) :=
  match l with
  | [] => Ok (p, true)
  | i :: t => do (p1, ok) <- deletePath p e i; if ok then stopPaths p1 e t else Ok (p1, false)
  end.
(** PipelineManager.cpp 72-105: the loop over the filters. *)
Fixpoint stopFilters (p : pipe) (l : list Z) : res pipe :=
  match l with
  | [] => Ok p
  | f :: t => do p1 <- dropFilter p f; stopFilters p1 t
  end.
(** PipelineManager.cpp 72-105 *)
Definition stop (p : pipe) (e : env) : res (pipe * bool) :=
  if negb (ppool p) then Ok (p, false)
  else
  do (p1, ok) <- stopPaths p e (mkeys (ppaths p));
  if negb ok then Ok (p1, false)
  else
  let p2 := mkPipe (pnet p1) [] (ppool p1) (pnext p1) (goneF p1) (goneP p1) in
  do p3 <- stopFilters p2 (mkeys (pfilters p2));
  Ok (mkPipe (pnet p3) (ppaths p3) false (pnext p3) (goneF p3) (goneP p3), true).

(** The commands of the control API (processEvent 675-719) and, between them, the
    housekeeping a worker thread does on a filter. *)
Inductive cmd :=
| CreateFilter (id : Z) (t : ftype) (made : bool)
| CreatePath (id org dst ow dr : Z) (mids : list Z)
| RemovePath (id : Z)
| RemoveFilter (id : Z)
| Stop
| SweepW (f : Z)
| SweepR (f : Z) (timed : bool).

(** PipelineManager.cpp 675-719. *)
Definition pcmd (p : pipe) (e : env) (c : cmd) : res (pipe * bool) :=
  match c with
  | CreateFilter id t made => Ok (createFilter p id t made)
  | CreatePath id org dst ow dr mids => createPathEvent p e id org dst ow dr mids
  | RemovePath id => removePath p e id
  | RemoveFilter id => removeFilter p id
  | Stop => stop p e
  | SweepW f => match mfind f (pfilters p) with
                | None => Ok (p, false)
                | Some x => do n <- sweepWriters (pnet p) e f (mkeys (fwr x)); Ok (withNet p n, true)
                end
  | SweepR f timed => match mfind f (pfilters p) with
                | None => Ok (p, false)
                | Some x => do n <- sweepReaders (pnet p) e f timed (mkeys (frd x)); Ok (withNet p n, true)
                end
  end.

(** Model's own: the start. *)
Definition emptyPipe : pipe := mkPipe (mkNet [] [] []) [] false 0 [] [].

(** A history of commands, with the answer of each (true: no error). *)
Inductive phist : pipe -> list (cmd * bool) -> Prop :=
| ph_nil : phist emptyPipe []
| ph_snoc p h e c p' a : phist p h -> pcmd p e c = Ok (p', a) -> phist p' (h ++ [(c, a)]).
