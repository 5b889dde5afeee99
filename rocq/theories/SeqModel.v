(** Model of how a filter numbers and stamps the frames it hands on, and of the filters it wakes
    (src/Filter.cpp 173-238, 286-319, 477-546, 750-808, 863-879).

    The work of the filter (doProcessFrame) is an oracle: whether it succeeded, which destination frames it marked
    and what it wrote to them itself. Whether there are new origin frames is another (SyncModel). A writer is
    connected from its creation to its deletion; a queue takes every frame added (RingModel, AudioBufModel). *)
From Verif Require Import Base ZMap.
Local Open Scope list_scope.
Local Open Scope Z_scope.

(** size_t *)
Definition w64 (z : Z) : Z := z mod 18446744073709551616.

(** Sequence number and origin time of a frame (Frame.hh 150-151). *)
Record stamp := mkSt { num : Z; origin : Z }.
(** The classes of Filter.hh 274-425 that have destinations. *)
Inductive kind := OneToOne | OneToMany | Head | ManyToOne.
(** Types.hh 84. *)
Inductive role := Regular | Server | NoRole.

(** A writer: the next number (seqNums) and the filters that read its queue (connectionData.readers). *)
Record writer := mkWr { next : Z; readers : list Z }.
(** Model's own: what processFrame uses of a filter, Filter.hh. *)
Record stage := mkStage { sid : Z; skind : kind; srole : role; periodic : bool; maxWriters : Z; writers : zmap writer }.

(** What one call of doProcessFrame does: its answer, the destination frames it marks (setConsumed) and the stamp each
    carries afterwards: the one it wrote, or else the one the memory of the frame held. *)
Record work := mkWork { ok : bool; marked : Z -> bool; own : Z -> stamp }.

(** The stamp of the destination frame of writer [i] after runDoProcessFrame, and the next number: OneToOne 755-764,
    OneToMany 771-785, Head 792-808, ManyToOne 868-879. [src] is the stamp of the first origin frame, [first] says
    whether [i] is the first key of dFrames. *)
Definition stamped (k : kind) (now : Z) (src : stamp) (w : work) (first : bool) (i : Z) (wr : writer) : stamp * Z :=
  let base := own w i in
  if ok w then
    match k with
    | OneToOne => (base, next wr)
    | OneToMany => (src, next wr)
    | Head => if marked w i then (mkSt (next wr) now, w64 (next wr + 1)) else (base, next wr)
    | ManyToOne => if first then (mkSt (next wr) now, w64 (next wr + 1)) else (base, next wr)
    end
  else (base, next wr).

(** What a round produces: frames handed on, by writer, and the filters to run next. *)
Record produced := mkPr { handed : list (Z * stamp); jobs : list Z }.

(** addFrames 201-217: in the order of the keys; the readers of each queue go to the front. *)
Fixpoint deliverAll (k : kind) (now : Z) (src : stamp) (w : work) (first : bool) (ws : zmap writer) (js : list Z) : zmap writer * produced :=
  match ws with
  | [] => ([], mkPr [] js)
  | (i, wr) :: r =>
      let (s, n) := stamped k now src w first i wr in
      let (r', p) := deliverAll k now src w false r (if marked w i then readers wr ++ js else js) in
      ((i, mkWr n (readers wr)) :: r', if marked w i then mkPr ((i, s) :: handed p) (jobs p) else p)
  end.

(** One round: [input] is the answer of demandOriginFrames. None: dFrames.begin() of an empty map is used. *)
Definition needsWriter (k : kind) : bool := match k with OneToOne | ManyToOne => true | _ => false end.
Definition process (now : Z) (input : bool) (src : stamp) (w : work) (s : stage) : option (stage * produced) :=
  let run :=
    match writers s with
    | [] => if needsWriter (skind s) then None else Some (s, mkPr [] [])
    | ws => let (ws', p) := deliverAll (skind s) now src w true ws [] in
            Some (mkStage (sid s) (skind s) (srole s) (periodic s) (maxWriters s) ws', p)
    end in
  match srole s with
  | Regular =>
      (* regularProcessFrame 501-524; demandDestinationFrames 173-199 fails if there is no writer. *)
      if input && (match writers s with [] => false | _ => true end) then run else Some (s, mkPr [] [])
  | Server => run  (* serverProcessFrame 526-546 *)
  | NoRole => Some (s, mkPr [] [])
  end.
(** processFrame 477-498. *)
Definition withSelf (s : stage) (p : produced) : produced :=
  mkPr (handed p) (if periodic s then jobs p ++ [sid s] else jobs p).

Inductive sevent :=
| SRound (now : Z) (input : bool) (src : stamp) (w : work)
| SConnect (i : Z) (granted : bool) (rs : list Z)   (* setWriter 286-308; [granted]: specificWriterConfig *)
| SDisconnect (i : Z).                              (* deleteWriter 310-319 *)

Definition setWriters (s : stage) (ws : zmap writer) : stage := mkStage (sid s) (skind s) (srole s) (periodic s) (maxWriters s) ws.
(** Model's own: a history of the filter. *)
Definition sstep (e : sevent) (s : stage) : option (stage * produced) :=
  match e with
  | SRound now input src w =>
      match process now input src w s with Some (s', p) => Some (s', withSelf s p) | None => None end
  | SConnect i g rs =>
      if (maxWriters s <=? Z.of_nat (length (writers s))) || mmem i (writers s) then Some (s, mkPr [] [])
      else if g then Some (setWriters s (mset i (mkWr 0 rs) (writers s)), mkPr [] [])
      else Some (s, mkPr [] [])
  | SDisconnect i => Some (setWriters s (mdel i (writers s)), mkPr [] [])
  end.
(** A history, up to a use of an empty map: the final state, what was produced at each event and whether it ended. *)
Fixpoint srun (es : list sevent) (s : stage) : stage * list produced * bool :=
  match es with
  | [] => (s, [], true)
  | e :: es => match sstep e s with
               | None => (s, [], false)
               | Some (s', p) => match srun es s' with (s'', ps, b) => (s'', p :: ps, b) end
               end
  end.
