(** Model of the input side of a filter's round: src/Filter.cpp framesSync 573-618, demandOriginFrames 548-571,
    demandOriginFramesBestEffort 631-658, demandOriginFramesFrameTime 660-734, regularProcessFrame 501-524,
    removeFrames 219-238. An input is a connected reader that belongs to this filter only, seen as the list of the
    times (Frame::getFrameTime) of the frames in its queue, oldest first: Reader::getFrame gives the front with
    newFrame = true when there is one (sharing is in ReaderModel). Frames handed again with newFrame = false when a
    queue is empty are left out. Whether a queue is full and whether there are destination frames is given from
    outside in every round. *)
From Verif Require Import Base ZMap.
Local Open Scope list_scope.
Local Open Scope Z_scope.

(** Model's own: no time. *)
Definition NO_DTS : Z := -1.
Definition syncMargin : Z := 40000. (* Types.hh 52 *)
Record filt := mkFl { ins : zmap (list Z); syncTs : Z; frameTime : Z; sync : bool }.
(** BaseFilter::BaseFilter 33-37; setSync is called by TailFilter's constructor 830-835. *)
Definition filt0 (sy : bool) : filt := mkFl [] 0 0 sy.

(** Reader::getCurrentTime, IOInterface.cpp 234-248. *)
Definition currentTime (q : list Z) : Z := match q with [] => NO_DTS | t :: _ => t end.
(** framesSync. *)
Definition wallClock (m : zmap (list Z)) : Z := fold_left (fun w x => if w <? currentTime (snd x) then currentTime (snd x) else w) m 0.
(** Filter.cpp 573-618 *)
Definition framesSync (full : Z -> bool) (f : filt) : list Z :=
  if negb (sync f) then mkeys (ins f)
  else let w := wallClock (ins f) in
       let empty := existsb (fun x => currentTime (snd x) =? NO_DTS) (ins f) in
       let pass := map fst (filter (fun x => negb (currentTime (snd x) =? NO_DTS) && (full (fst x) || (w - syncMargin >? currentTime (snd x)))) (ins f)) in
       if empty || negb (match pass with [] => true | _ => false end) then pass else mkeys (ins f).

(** getFrame on the readers [ids]: the new frames (reader, time). *)
Definition fronts (ids : list Z) (m : zmap (list Z)) : list (Z * Z) :=
  flat_map (fun i => match mfind i m with Some (t :: _) => [(i, t)] | _ => [] end) ids.
(** removeFrames. *)
Definition dropFront (m : zmap (list Z)) (i : Z) : zmap (list Z) := match mfind i m with Some (_ :: q) => mset i q m | _ => m end.
(** Filter.cpp 219-238 *)
Definition removeFrames (ids : list Z) (m : zmap (list Z)) : zmap (list Z) := fold_left dropFront ids m.

(** demandOriginFramesFrameTime: outOfScopeTs, outDated, validFrame over the new frames. *)
Definition scanF (s ft : Z) : Z * bool * bool -> Z * Z -> Z * bool * bool := fun '(oos, od, va) x =>
  let t := snd x in
  if t >? s + ft then (if oos <? 0 then t else Z.min t oos, od, va)
  else if t <? s then (oos, true, va)
  else (oos, od, true).
(** Filter.cpp 660-734. *)
Definition scan (s ft : Z) (fr : list (Z * Z)) : Z * bool * bool := fold_left (scanF s ft) fr (-1, false, false).
(** Filter.cpp 660-734. *)
Definition frameTimeDemand (f : filt) (fr : list (Z * Z)) : bool * Z :=
  match fr with
  | [] => (false, syncTs f)
  | _ => let '(oos, od, va) := scan (syncTs f) (frameTime f) fr in
         if negb va then (negb od, if (oos >? syncTs f) && negb od then oos else syncTs f)
         else (true, syncTs f + frameTime f)
  end.
(** One round: [dst] is the answer of demandDestinationFrames. The result says whether doProcessFrame was called and
    the new frames taken (and removed from the queues in any case). *)
Definition round (full : Z -> bool) (dst : bool) (f : filt) : filt * bool * list (Z * Z) :=
  match mkeys (ins f), framesSync full f with
  | [], _ => (f, false, [])
  | _, [] => (f, false, [])
  | all, ids =>
      if frameTime f <=? 0
      then let fr := fronts ids (ins f) in
           (mkFl (removeFrames (map fst fr) (ins f)) (syncTs f) (frameTime f) (sync f), (match fr with [] => false | _ => true end) && dst, fr)
      else let fr := fronts all (ins f) in
           let '(ok, s) := frameTimeDemand f fr in
           (mkFl (removeFrames (map fst fr) (ins f)) s (frameTime f) (sync f), ok && dst, fr)
  end.
(** What happens to a filter. *)
Inductive sop := Arrive (i t : Z) | Round (full : Z -> bool) (dst : bool) | SetFrameTime (ft : Z) | AddInput (i : Z) | DelInput (i : Z).
(** Model's own: a frame arrives at an input. *)
Definition push (m : zmap (list Z)) (i t : Z) : zmap (list Z) := match mfind i m with Some q => mset i (q ++ [t]) m | None => m end.
(** An entry of the history: was doProcessFrame called, with which new frames, and the reference time after. *)
Record entry := mkE { done : bool; taken : list (Z * Z); ref : Z }.
(** Model's own: a history of the filter. *)
Definition sstep (f : filt) (o : sop) : filt * list entry :=
  match o with
  | Arrive i t => (mkFl (push (ins f) i t) (syncTs f) (frameTime f) (sync f), [])
  | Round full dst => let '(f', ok, fr) := round full dst f in (f', [mkE ok fr (syncTs f')])
  | SetFrameTime ft => (mkFl (ins f) (syncTs f) ft (sync f), [])
  | AddInput i => (mkFl (match mfind i (ins f) with Some _ => ins f | None => mset i [] (ins f) end) (syncTs f) (frameTime f) (sync f), [])
  | DelInput i => (mkFl (mdel i (ins f)) (syncTs f) (frameTime f) (sync f), [])
  end.
(** Model's own: a history of the filter. *)
Fixpoint srun (f : filt) (ops : list sop) : filt * list entry :=
  match ops with [] => (f, []) | o :: r => let '(f1, e1) := sstep f o in let '(f2, e2) := srun f1 r in (f2, e1 ++ e2) end.
