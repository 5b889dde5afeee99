(** Model of class Reader (src/IOInterface.cpp 32-253): one queue end shared by
    several filters. Every method holds Reader::lck, so a call is one step.

    Simplifications: the queue behind the reader is the abstract FIFO established
    for AVFramedQueue (C01-C04), with [prev] the frame its forceGetFront would
    return; frames are values of type [V]; delay statistics (measureDelay,
    140-162) are not kept, but their dereference of the cached frame is: it is
    the outcome [NullDeref]. *)
From Verif Require Import Base ZMap.

Section Reader.
Context {V : Type}.

Record rdr := mkRdr {
  open    : bool;                    (* queue != NULL && queue->isConnected() *)
  filters : zmap (bool * bool);      (* filter id -> (not yet fetched, not yet released) *)
  frame   : option V;                (* Frame *frame *)
  ready   : bool;
  pending : list V;                  (* contents of the queue, oldest first *)
  prev    : option V                 (* what forceGetFront returns *)
}.

Inductive rop :=
| Arrive (v : V)       (* the writer commits a frame *)
| Get (f : Z)          (* getFrame(f, newFrame) *)
| Release (f : Z)      (* removeFrame(f) *)
| Join (f : Z)         (* addReader(f, _) *)
| Leave (f : Z).       (* disconnect(f) *)

Inductive rans :=
| Got (v : option V) (isnew : bool)    (* None: NULL *)
| Removed (b : bool)                   (* did the frame leave the queue *)
| Done (b : bool).

(* Model's own: how an access ends. *)
Inductive rout := ROk (s : rdr) (x : rans) | NullDeref.

(** ready branch of getFrame, 92-98. *)
Definition arm (m : zmap (bool * bool)) : zmap (bool * bool) :=
  map (fun p => (fst p, (true, true))) m.

(** getFrame, 70-109. *)
Definition getFrame (s : rdr) (f : Z) : rdr * rans :=
  if negb (open s) then (s, Got None false) else
  match mfind f (filters s) with
  | None => (s, Got None false)
  | Some _ =>
      let fr := match frame s with Some v => Some v | None => hd_error (pending s) end in
      match fr with
      | None => (s, Got (prev s) false)
      | Some v =>
          let m := if ready s then arm (filters s) else filters s in
          match mfind f m with
          | Some (true, b) =>
              (mkRdr (open s) (mset f (false, b) m) (Some v) false (pending s) (prev s), Got (Some v) true)
          | _ => (mkRdr (open s) m (Some v) false (pending s) (prev s), Got (Some v) false)
          end
      end
  end.

(** allRead, 111-120. *)
Definition allRead (m : zmap (bool * bool)) : bool :=
  forallb (fun p => negb (fst (snd p) || snd (snd p))) m.

(** removeFrame, 122-138. *)
Definition removeFrame (s : rdr) (f : Z) : rout :=
  let m := match mfind f (filters s) with
           | Some (a, _) => mset f (a, false) (filters s)
           | None => filters s
           end in
  if allRead m then
    match frame s with
    | None => NullDeref                      (* measureDelay: frame->getFrameTime() *)
    | Some _ =>
        if open s then
          match pending s with
          | v :: t => ROk (mkRdr (open s) m None true t (Some v)) (Removed true)
          | [] => ROk (mkRdr (open s) m None true [] (prev s)) (Removed false)
          end
        else ROk (mkRdr (open s) m None true (pending s) (prev s)) (Removed false)
    end
  else ROk (mkRdr (open s) m (frame s) (ready s) (pending s) (prev s)) (Removed false).

(** addReader, 60-68 (addReaderCData refuses an id that is already there). *)
Definition addReader (s : rdr) (f : Z) : rdr :=
  if open s && negb (mmem f (filters s))
  then mkRdr (open s) (mset f (false, false) (filters s)) (frame s) (ready s) (pending s) (prev s)
  else s.

(** disconnect(id), 194-212: the last filter also disconnects the queue. *)
Definition disconnect (s : rdr) (f : Z) : rdr * rans :=
  match mfind f (filters s) with
  | None => (s, Done false)
  | Some _ =>
      let m := mdel f (filters s) in
      match m with
      | [] => (mkRdr false m (frame s) (ready s) (pending s) (prev s), Done (open s))
      | _ => (mkRdr (open s) m (frame s) (ready s) (pending s) (prev s), Done true)
      end
  end.

(* Model's own: a history of the reader. *)
Definition rdstep (s : rdr) (o : rop) : rout :=
  match o with
  | Arrive v => ROk (mkRdr (open s) (filters s) (frame s) (ready s) (pending s ++ [v]) (prev s)) (Done true)
  | Get f => let (s', x) := getFrame s f in ROk s' x
  | Release f => removeFrame s f
  | Join f => ROk (addReader s f) (Done true)
  | Leave f => let (s', x) := disconnect s f in ROk s' x
  end.

(** setConnection (178-192) registers the first filter; the others join. *)
Definition rinit (f : Z) : rdr := mkRdr true [(f, (false, false))] None true [] None.

(** Every history of the reader, oldest first. *)
Inductive history (s0 : rdr) : rdr -> list (rop * rans) -> Prop :=
| h_nil : history s0 s0 []
| h_snoc s tr o s' x : history s0 s tr -> rdstep s o = ROk s' x -> history s0 s' (tr ++ [(o, x)]).

End Reader.
Arguments rdr : clear implicits.
Arguments rop : clear implicits.
Arguments rans : clear implicits.
