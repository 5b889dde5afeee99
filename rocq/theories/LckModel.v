(** Model of who takes which locks: Filter.cpp 39-571, 620-629, 736-748, 810-861, IOInterface.cpp 60-232,
    AudioCircularBuffer.cpp 69-167, WorkersPool.cpp 80-195, PipelineManager.cpp 287-482, 721-729,
    Dasher.cpp 298-308.

    A thread carries out a list of actions, of which taking a lock that another thread (or itself: the
    locks are std::mutex) has is the only one, besides waiting for a filter to come to rest, that it cannot do at once.
    Simplified: what is done between two actions is not here, so which readers a function visits is left
    open; a worker that finds nothing to do waits without any lock (WorkersPool.cpp 94, 96) and
    counts as idle; stopping the pool is not here. *)
From Verif Require Import Base.

(** The locks: the pool's (WorkersPool.hh), a filter's [mtx] (Runnable.hh 122), a reader's [lck]
    (IOInterface.hh 219), an audio queue's [mtx] (AudioCircularBuffer.hh). [Run f] is the mark that filter [f] is being
    run (Runnable.cpp 87-100). *)
Inductive lock := Pool | Fil (f : nat) | Rdr (r : nat) | Aud (q : nat) | Run (f : nat).
(** Model's own. *)
Definition lock_eq (a b : lock) : {a = b} + {a <> b}.
Proof. decide equality; apply Nat.eq_dec. Defined.

(** The kinds of filter that matter: the dasher, which sends events to the filters it reads from and
    writes to nobody (Dasher.cpp 305-307, Filter.cpp 829-830); the heads, whose pushEvent takes no
    lock (Filter.cpp 810-827); the others. *)
Inductive fkind := Dash | Head | Other.

(** [Acq], [Rel]: lock and unlock. [Pick f]: a worker that has the pool takes filter [f] if it is at rest, else
    goes on looking (WorkersPool.cpp 95-113). [Await f]: removeTask waits for it to be at rest
    (WorkersPool.cpp 187-190). [Ask d e]: is a reader of [d] connected to a queue of [e] (Filter.cpp 744-746); if so an
    event is pushed to [e] (PipelineManager.cpp 727). [Link d e], [Unlink d e]: a reader of [d] is
    connected to a queue of [e], is no more. *)
Inductive act := Acq (l : lock) | Rel (l : lock) | Pick (f : nat) | Await (f : nat) | Ask (d e : nat) | Link (d e : nat) | Unlink (d e : nat).

(** std::lock_guard: its scope. *)
Definition guarded (l : lock) (body : list act) : list act := Acq l :: body ++ [Rel l].
(** AudioCircularBuffer.cpp 74, 143, 162. *)
Definition onQueue (q : nat) : list act := guarded (Aud q) [].
(** A function of a reader (IOInterface.cpp 60-232), with the audio queues it looks into (72-90: getFront). *)
Definition onReader (x : nat * list nat) : list act := guarded (Rdr (fst x)) (flat_map onQueue (snd x)).

(** The functions of a filter that take its lock, by what they visit while they have it.
    [Plain]: isWConnected, getWConnectionData, isRConnected, getReader, setReader, generateReaderID, generateWriterID,
    demandDestinationFrames, processEvent, pushEvent, getState, disconnectWriter (Filter.cpp 54, 65, 99, 115, 125, 143,
    159, 175, 427, 465, 471, 392). [Readers]: ~BaseFilter, removeFrames, pendingJobs, demandOriginFrames
    (41, 227, 242, 550), with the audio queues that framesSync looks into (587, 599). [Queues]: addFrames (203).
    [Asked]: getAvgReaderDelay, getLostBlocs (75-95), which do not have the filter's lock when they take the reader's. *)
Inductive fcall := Plain | Readers (qs : list nat) (rs : list (nat * list nat)) | Queues (qs : list nat) | Asked (r : nat).
(** Filter.cpp 39-571: the locks a call takes. *)
Definition call (f : nat) (c : fcall) : list act :=
  match c with
  | Plain => guarded (Fil f) []
  | Readers qs rs => guarded (Fil f) (flat_map onQueue qs ++ flat_map onReader rs)
  | Queues qs => guarded (Fil f) (flat_map onQueue qs)
  | Asked r => guarded (Fil f) [] ++ onReader (r, [])
  end.

(** sendEvent, Filter.cpp 736-748. *)
Definition sendEvent (d e : nat) : list act := guarded (Fil d) [Ask d e].

(** connect, Filter.cpp 321-364. [times]: how often getReader is called, once or twice (333). *)
Inductive outcome := Refused | NoReader | Connected (r : nat).
(** Filter.cpp 321-364. *)
Definition connect (a b : nat) (twice : bool) (o : outcome) : list act :=
  call a Plain ++ call b Plain ++
  guarded (Fil a)
    (call b Plain ++ (if twice then call b Plain else []) ++
     match o with
     | Refused => []
     | NoReader => call b Plain
     | Connected r => call b Plain ++ onReader (r, []) ++ [Link b a]
     end).

(** shareReader, Filter.cpp 252-284, of filter [a]'s reader [r], which reads from [w], with [b].
    [o]: whether the checks at 261-278 pass. The reader of [b] is set without [b]'s lock (280). *)
Definition share (a b r w : nat) (o : bool) : list act :=
  guarded (Fil a)
    (if (a =? b)%nat then [] else
     call b Plain ++ (if o then onReader (r, []) ++ [Link b w] else [])).

(** disconnectReader, Filter.cpp 406-420 and 620-629, of a reader [r] of [d] that reads from [e]. *)
Definition disconnectReader (d e r : nat) : list act :=
  guarded (Fil d) (Acq (Rdr r) :: Unlink d e :: Rel (Rdr r) :: onReader (r, [])).

(** removeTask and the destructor: WorkersPool.cpp 179-195, Filter.cpp 39-50, as in PipelineManager.cpp 409-411, 447-448. *)
Definition destroy (f : nat) (rs : list (nat * list nat)) : list act :=
  guarded Pool [] ++ [Await f] ++ call f (Readers [] rs).

(** What the thread that serves the control port does, in any order: PipelineManager.cpp 118-482 and
    the events (721-729). *)
Inductive request :=
  | Calls (f : nat) (c : fcall) | AddTask | Connects (a b : nat) (twice : bool) (o : outcome)
  | Shares (a b r w : nat) (o : bool) | Disconnects (d e r : nat) | Destroys (f : nat) (rs : list (nat * list nat)).
(** WorkersPool.cpp 162-177 is [AddTask]. *)
Definition requestActs (q : request) : list act :=
  match q with
  | Calls f c => call f c
  | AddTask => guarded Pool []
  | Connects a b t o => connect a b t o
  | Shares a b r w o => share a b r w o
  | Disconnects d e r => disconnectReader d e r
  | Destroys f rs => destroy f rs
  end.

(** What a filter does between demanding and adding frames (runDoProcessFrame): calls functions of its
    own (VideoDecoderLibav.cpp 165, SourceManager.cpp 174) and, if it is a dasher, sends events (Dasher.cpp 306). *)
Inductive piece := Own (c : fcall) | Tell (e : nat).
(** VideoDecoderLibav.cpp 165, SourceManager.cpp 174, Dasher.cpp 298-308. *)
Definition pieceActs (kind : nat -> fkind) (f : nat) (p : piece) : list act :=
  match p with
  | Own c => call f c
  | Tell e => match kind f with Dash => sendEvent f e | _ => [] end
  end.
(** regularProcessFrame, serverProcessFrame: Filter.cpp 501-546. *)
Definition processFrame (kind : nat -> fkind) (f : nat) (ps : list piece) (demand remove : fcall) (qs : list nat) : list act :=
  call f Plain ++ call f demand ++ call f Plain ++ flat_map (pieceActs kind f) ps ++ call f (Queues qs) ++ call f remove.
(** A worker's round with filter [f]: WorkersPool.cpp 89-137. *)
Record round := mkRound { ofFilter : nat; pieces : list piece; demand : fcall; remove : fcall; adds : list nat; pending : list (nat * list nat) }.
(** WorkersPool.cpp 89-137. *)
Definition roundActs (kind : nat -> fkind) (x : round) : list act :=
  let f := ofFilter x in
  [Acq Pool; Pick f; Rel Pool] ++ processFrame kind f (pieces x) (demand x) (remove x) (adds x) ++
  [Acq Pool; Rel (Run f)] ++ call f (Readers [] (pending x)) ++ [Rel Pool].

(** Model's own: what threads there are, thread 0 serving the control port, what each has still to do, who has which
    lock, and which filter reads from which. *)
Record sys := mkSys { prog : nat -> list act; own : lock -> option nat; fed : list (nat * nat) }.
(** Nothing runs yet: PipelineManager.cpp 43-62. *)
Definition start : sys := mkSys (fun _ => []) (fun _ => None) [].
(** Model's own: updates. *)
Definition setProg (t : nat) (p : list act) (s : sys) : sys :=
  mkSys (fun u => if (u =? t)%nat then p else prog s u) (own s) (fed s).
(** Model's own. *)
Definition setOwn (l : lock) (o : option nat) (s : sys) : sys :=
  mkSys (prog s) (fun x => if lock_eq x l then o else own s x) (fed s).
(** Model's own. *)
Definition setFed (fd : list (nat * nat)) (s : sys) : sys := mkSys (prog s) (own s) fd.
(** Model's own. *)
Definition pair_eq (x y : nat * nat) : bool := ((fst x =? fst y) && (snd x =? snd y))%nat.
(** Model's own: one occurrence less. *)
Fixpoint less (x : nat * nat) (l : list (nat * nat)) : list (nat * nat) :=
  match l with [] => [] | y :: r => if pair_eq x y then r else y :: less x r end.

(** One action of thread [t]; none if it has nothing to do or has to wait (or would unlock what it has not
    locked, which C99 shows does not happen). Locks: std::mutex. A dasher has no
    writers (Filter.cpp 829-830), so nothing is connected from it. Filter.cpp 744-746, 810-827; WorkersPool.cpp 95-113, 187-190. *)
Definition exec (kind : nat -> fkind) (t : nat) (s : sys) : option sys :=
  match prog s t with
  | [] => None
  | a :: p =>
      let s1 := setProg t p s in
      match a with
      | Acq l => match own s l with None => Some (setOwn l (Some t) s1) | Some _ => None end
      | Rel l => match own s l with Some u => if (u =? t)%nat then Some (setOwn l None s1) else None | None => None end
      | Pick f => match own s (Run f) with None => Some (setOwn (Run f) (Some t) s1) | Some _ => Some (setProg t [Rel Pool] s) end
      | Await f => match own s (Run f) with None => Some s1 | Some _ => None end
      | Ask d e => if existsb (pair_eq (d, e)) (fed s)
                   then match kind e with Head => Some s1 | _ => Some (setProg t (Acq (Fil e) :: Rel (Fil e) :: p) s) end
                   else Some s1
      | Link d e => Some (match kind e with Dash => s1 | _ => setFed ((d, e) :: fed s) s1 end)
      | Unlink d e => Some (setFed (less (d, e) (fed s)) s1)
      end
  end.
