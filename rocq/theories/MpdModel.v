(** Model of the publication of DASH segments: MpdManager (src/modules/dasher/MpdManager.cpp) and the
    part of Dasher (src/modules/dasher/Dasher.cpp) that stores completed segments, writes them to files,
    keeps the manifest and deletes old files.

    The segmenters themselves are in DashModel and NalModel; here what they return for each frame is an
    input. Simplified: the disk never fails; the attributes of the manifest that only copy parameters
    (codec, size, bandwidth, templates' timescale, availability time) are not kept; representations are a
    set of identifiers without order. *)
From Coq Require Import Ascii String.
From Verif Require Import Base ZMap Bytes JsonModel CtlModel.
Local Open Scope list_scope.
Local Open Scope Z_scope.

(** std::to_string(unsigned int), std::to_string(uint64_t). *)
Definition u32 (z : Z) : Z := z mod 4294967296.
(** std::to_string, Dasher.cpp 222, 589, 597. *)
Definition uintText (z : Z) : str := decimal 20 z.

(** Dasher::getSegmentName, Dasher.cpp 586-592; the reader identifier (int) becomes unsigned. *)
Definition getSegmentName (basePath baseName : str) (reprId timestamp : Z) (ext : str) : str :=
  basePath ++ baseName ++ lit "_" ++ uintText (u32 reprId) ++ lit "_" ++ uintText timestamp ++ ext.
(** Dasher::getInitSegmentName 594-600. *)
Definition getInitSegmentName (basePath baseName : str) (reprId : Z) (ext : str) : str :=
  basePath ++ baseName ++ lit "_" ++ uintText (u32 reprId) ++ lit "_init" ++ ext.

(** Video or audio. Dasher.hh 41-42. *)
Inductive side := V | A.
(** Dasher.hh 46-47. *)
Definition ext (s : side) : str := match s with V => lit ".m4v" | A => lit ".m4a" end.
(** Dasher.cpp 72-75. *)
Definition segTempl (s : side) (baseName : str) : str := baseName ++ lit "_$RepresentationID$_$Time$" ++ ext s.
(** Dasher.cpp 74-75. *)
Definition initTempl (s : side) (baseName : str) : str := baseName ++ lit "_$RepresentationID$_init" ++ ext s.

(** An adaptation set: the timeline (t and d of each S) and the representations. *)
Record aset := mkSet { timeline : list (Z * Z); reprs : list str }.
(** Model's own: the keys of a std::map, MpdManager.cpp 145-199. *)
Definition streqb (a b : str) : bool := if list_eq_dec ascii_dec a b then true else false.
(** Model's own: the keys of a std::map, MpdManager.cpp 145-199. *)
Definition memStr (x : str) (l : list str) : bool := existsb (streqb x) l.

(** MpdManager. *)
Record manager := mkMgr { maxSeg : Z; minBufferTime : Z; vset : option aset; audset : option aset }.
(** MpdManager.hh 29. *)
Definition MIN_SEGMENT : Z := 2.
(** MpdManager::MpdManager 29-36. *)
Definition newManager : manager := mkMgr MIN_SEGMENT MIN_SEGMENT None None.
(** MpdManager::configure 45-63 (unsigned arithmetic). *)
Definition configureM (minBuffTime maxSegment segDur : Z) (m : manager) : manager :=
  let ms := if MIN_SEGMENT <=? maxSegment then maxSegment else MIN_SEGMENT in
  let mb := if u32 (ms * segDur) <=? minBuffTime then u32 (ms * segDur)
            else if u32 (2 * segDur) <=? minBuffTime then minBuffTime
            else u32 (2 * segDur) in
  mkMgr ms mb (vset m) (audset m).
(** Model's own: MpdManager's map of adaptation sets at V_ADAPT_SET_ID or A_ADAPT_SET_ID, Dasher.hh
    41-42. *)
Definition setOf (s : side) (m : manager) : option aset := match s with V => vset m | A => audset m end.
(** Model's own: MpdManager's map of adaptation sets at V_ADAPT_SET_ID or A_ADAPT_SET_ID, Dasher.hh
    41-42. *)
Definition putSet (s : side) (x : aset) (m : manager) : manager :=
  match s with V => mkMgr (maxSeg m) (minBufferTime m) (Some x) (audset m) | A => mkMgr (maxSeg m) (minBufferTime m) (vset m) (Some x) end.

(** AdaptationSet::updateTimestamp 241-252. The loop pops the front while there are [n] or more; the
    value returned is the last one popped, 0 if none. *)
Fixpoint popFront (n : Z) (l : list (Z * Z)) (removed : Z) : Z * list (Z * Z) :=
  match l with
  | [] => (removed, [])
  | x :: r => if n <=? Z.of_nat (length l) then popFront n r (fst x) else (removed, l)
  end.
(** MpdManager.cpp 241-252 *)
Definition updateTimestamp (ts dur n : Z) (x : aset) : Z * aset :=
  let '(r, l) := popFront n (timeline x) 0 in (r, mkSet (l ++ [(ts, dur)]) (reprs x)).
(** MpdManager::updateAdaptationSetTimestamp 116-129. *)
Definition updateAdaptationSetTimestamp (s : side) (ts dur : Z) (m : manager) : Z * manager :=
  match setOf s m with
  | None => (0, m)
  | Some x => let '(r, y) := updateTimestamp ts dur (maxSeg m) x in (r, putSet s y m)
  end.
(** updateVideoAdaptationSet / updateAudioAdaptationSet 145-171 and updateVideoRepresentation /
    updateAudioRepresentation 173-199, 299-321, 410-423: both are made when missing. *)
Definition updateRepresentation (s : side) (id : str) (m : manager) : manager :=
  let x := match setOf s m with None => mkSet [] [] | Some x => x end in
  putSet s (if memStr id (reprs x) then x else mkSet (timeline x) (id :: reprs x)) m.
(** removeRepresentation 201-208, 282-290, 394-402. *)
Definition removeRepresentation (s : side) (id : str) (m : manager) : manager :=
  match setOf s m with
  | None => m
  | Some x => putSet s (mkSet (timeline x) (filter (fun y => negb (streqb id y)) (reprs x))) m
  end.

(** *** Files. *)
Inductive content := Data (b : bytes) | Manifest (m : manager).
(** Model's own: the files below basePath (Dasher.cpp 382-413, MpdManager.cpp 65-114). *)
Definition disk := list (str * content).
(** Model's own: the content of a file. *)
Fixpoint fget (n : str) (d : disk) : option content :=
  match d with [] => None | (k, c) :: r => if streqb k n then Some c else fget n r end.
(** remove(). *)
Definition fdel (n : str) (d : disk) : disk := filter (fun x => negb (streqb (fst x) n)) d.
(** ofstream: create or overwrite. *)
Definition fput (n : str) (c : content) (d : disk) : disk := (n, c) :: fdel n d.

(** *** The dasher. A DashSegment, Dasher.cpp 690-747: complete or not, its time and duration and its bytes. *)
Record slot := mkSlot { sdone : bool; sts : Z; sdur : Z; sdata : bytes }.
(** DashSegment::clear 741-747 resets the length, not the buffer. *)
Definition clearSlot (x : slot) : slot := mkSlot false 0 0 [].
(** The fields of Dasher used here, Dasher.hh 52-140. *)
Record dasher := mkD { mgr : option manager; basePath : str; baseName : str; segDur : Z;
                       vslots : zmap slot; aslots : zmap slot; hasVideo : bool; files : disk }.
(** Model's own: the maps vSegments and aSegments, Dasher.cpp 245-380. *)
Definition slotsOf (s : side) (d : dasher) : zmap slot := match s with V => vslots d | A => aslots d end.
(** Model's own: the maps vSegments and aSegments, Dasher.cpp 245-380. *)
Definition putSlots (s : side) (x : zmap slot) (d : dasher) : dasher :=
  match s with
  | V => mkD (mgr d) (basePath d) (baseName d) (segDur d) x (aslots d) (hasVideo d) (files d)
  | A => mkD (mgr d) (basePath d) (baseName d) (segDur d) (vslots d) x (hasVideo d) (files d)
  end.
(** Model's own: one field changed. *)
Definition putFiles (x : disk) (d : dasher) : dasher :=
  mkD (mgr d) (basePath d) (baseName d) (segDur d) (vslots d) (aslots d) (hasVideo d) x.
(** Model's own: one field changed. *)
Definition putMgr (x : manager) (d : dasher) : dasher :=
  mkD (Some x) (basePath d) (baseName d) (segDur d) (vslots d) (aslots d) (hasVideo d) (files d).
(** Model's own: one field changed. *)
Definition onMgr (f : manager -> manager) (d : dasher) : dasher :=
  match mgr d with None => d | Some m => putMgr (f m) d end.
(** Dasher::Dasher 38-43; segDur is not set ([junk]). *)
Definition newDasher (junk : Z) : dasher := mkD None [] [] junk [] [] false [].

(** Dasher.cpp 71. *)
Definition mpdPath (d : dasher) : str := basePath d ++ baseName d ++ lit ".mpd".
(** mpdMngr->writeToDisk(mpdPath), Dasher.cpp 289, 342. *)
Definition writeManifest (d : dasher) : dasher :=
  match mgr d with None => d | Some m => putFiles (fput (mpdPath d) (Manifest m) (files d)) d end.

(** Dasher::configure 53-85; [writable]: access() succeeds. *)
Definition withSlash (p : str) : str := if streqb (skipn (length p - 1) p) (lit "/") then p else p ++ lit "/".
(** Dasher.cpp 53-85 *)
Definition configure (folder base : str) (dur ms mb : Z) (writable : bool) (d : dasher) : bool * dasher :=
  if negb writable then (false, d)
  else match base with
  | [] => (false, d)
  | _ =>
      if dur =? 0 then (false, d)
      else (true, mkD (Some (configureM mb ms dur (match mgr d with None => newManager | Some m => m end)))
                      (withSlash folder) base dur (vslots d) (aslots d) (hasVideo d) (files d))
  end.

(** Dasher::specificReaderConfig 499-548 for a stream of a supported codec. *)
Definition emptySlot : slot := mkSlot false 0 0 [].
(** Dasher.cpp 499-548. *)
Definition addReader (s : side) (id : Z) (d : dasher) : bool * dasher :=
  match mgr d with
  | None => (false, d)
  | Some _ =>
      if mmem id (vslots d) || mmem id (aslots d) then (false, d)
      else let d := putSlots s (mset id emptySlot (slotsOf s d)) d in
           (true, match s with
                  | V => mkD (mgr d) (basePath d) (baseName d) (segDur d) (vslots d) (aslots d) true (files d)
                  | A => d
                  end)
  end.
(** Dasher::specificReaderDelete 550-584; here the identifier is printed as an int. *)
Definition deleteReader (id : Z) (d : dasher) : bool * dasher :=
  if negb (mmem id (vslots d) || mmem id (aslots d)) then (false, d)
  else
    let drop s d := if mmem id (slotsOf s d) then onMgr (removeRepresentation s (intText id)) (putSlots s (mdel id (slotsOf s d)) d) else d in
    let d := drop A (drop V d) in
    let d := mkD (mgr d) (basePath d) (baseName d) (segDur d) (vslots d) (aslots d) (match vslots d with [] => false | _ => hasVideo d end) (files d) in
    (true, writeManifest d).

(** What a segmenter gives for one frame: a new initialisation segment and a completed segment. *)
Record given := mkGiven { gid : Z; ginit : option bytes; gseg : option (Z * Z * bytes) }.
(** DashSegmenter::generateSegment 644-678 stores the segment; Dasher::generateSegment 210-243 then makes the representation. *)
Definition complete (s : side) (id : Z) (g : Z * Z * bytes) (d : dasher) : dasher :=
  let '(ts, dur, data) := g in
  onMgr (updateRepresentation s (uintText (u32 id))) (putSlots s (mset id (mkSlot true ts dur data) (slotsOf s d)) d).
(** One frame: Dasher::doProcessFrame 96-130, generateInitSegment 174-208, generateSegment 210-243 (audio
    segments complete by themselves only when there is no video). *)
Definition oneFrame (g : given) (d : dasher) : dasher :=
  let side := if mmem (gid g) (vslots d) then Some V else if mmem (gid g) (aslots d) then Some A else None in
  match side with
  | None => d
  | Some s =>
      let d := match ginit g with
               | None => d
               | Some b => putFiles (fput (getInitSegmentName (basePath d) (baseName d) (gid g) (ext s)) (Data b) (files d)) d
               end in
      match gseg g with
      | None => d
      | Some x => match s with V => complete V (gid g) x d | A => if hasVideo d then d else complete A (gid g) x d end
      end
  end.

(** Dasher::writeSegmentsToDisk 382-396 and cleanSegments 398-413. *)
Definition writeAll (s : side) (ts : Z) (d : dasher) : dasher :=
  putFiles (fold_left (fun f x => fput (getSegmentName (basePath d) (baseName d) (fst x) ts (ext s)) (Data (sdata (snd x))) f) (slotsOf s d) (files d))
           (putSlots s (map (fun x => (fst x, clearSlot (snd x))) (slotsOf s d)) d).
(** Dasher.cpp 398-413 *)
Definition cleanSegments (s : side) (ts : Z) (d : dasher) : dasher :=
  putFiles (fold_left (fun f x => fdel (getSegmentName (basePath d) (baseName d) (fst x) ts (ext s)) f) (slotsOf s d) (files d)) d.

(** Dasher::forceAudioSegmentsGeneration 351-380: stops at the first stream that gives none. *)
Fixpoint forceAudio (l : list Z) (forced : Z -> option (Z * Z * bytes)) (d : dasher) : dasher :=
  match l with
  | [] => d
  | id :: r => match forced id with None => d | Some g => forceAudio r forced (complete A id g d) end
  end.
(** Dasher::writeVideoSegments 245-296, writeAudioSegments 310-349. *)
Definition writeSide (s : side) (forced : Z -> option (Z * Z * bytes)) (d : dasher) : dasher :=
  match slotsOf s d with
  | [] => d
  | (_, x) :: _ =>
      if negb (forallb (fun y => sdone (snd y)) (slotsOf s d)) then d
      else
        let d := match s with V => forceAudio (mkeys (aslots d)) forced d | A => d end in
        let d := writeAll s (sts x) d in
        match mgr d with
        | None => d
        | Some m =>
            let '(rm, m) := updateAdaptationSetTimestamp s (sts x) (sdur x) m in
            let d := writeManifest (putMgr m d) in
            if 0 <? rm then cleanSegments s rm d else d
        end
  end.
(** Dasher::doProcessFrame 87-143: all the new frames, then both kinds of segments. *)
Definition round (gs : list given) (forced : Z -> option (Z * Z * bytes)) (d : dasher) : dasher :=
  match mgr d with
  | None => d
  | Some _ => writeSide A forced (writeSide V forced (fold_left (fun d g => oneFrame g d) gs d))
  end.

(** *** Histories. *)
Inductive op :=
| OConfigure (folder base : str) (dur ms mb : Z) (writable : bool)
| OAdd (s : side) (id : Z)
| ODelete (id : Z)
| ORound (gs : list given) (forced : Z -> option (Z * Z * bytes)).
(** Model's own: a history of calls of the functions above. *)
Definition step (o : op) (d : dasher) : dasher :=
  match o with
  | OConfigure f b du ms mb w => snd (configure f b du ms mb w d)
  | OAdd s id => snd (addReader s id d)
  | ODelete id => snd (deleteReader id d)
  | ORound gs f => round gs f d
  end.
(** Model's own: a history of calls of the functions above. *)
Definition run (ops : list op) (d : dasher) : dasher := fold_left (fun d o => step o d) ops d.
