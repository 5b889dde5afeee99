(** What a DASH client expects of a stream of segments. *)
From Coq Require Import String.
From Verif Require Import Base Bytes IsoSpec DashModel.
Local Open Scope list_scope.
Local Open Scope Z_scope.

(** Pictures before the first key frame cannot be decoded. *)
Fixpoint kept (fs : list vframe) : list vframe :=
  match fs with [] => [] | f :: r => if fintra f then fs else kept r end.

(** The samples of a segment holding the pictures [g], when [nxt] is the picture after them: a sample
    lasts until the decoding of the next one; the last one until the presentation of [nxt]. Durations
    and composition offsets are 32 bit fields. *)
Fixpoint accesses (g : list vframe) (nxt : vframe) : list access :=
  match g with
  | [] => []
  | f :: r =>
      mkAccess (fbytes f)
               ((match r with [] => fpts nxt - fpts f | f' :: _ => fdts f' - fdts f end) mod 4294967296)
               ((fpts f - fdts f) mod 4294967296) (fintra f) :: accesses r nxt
  end.
Definition startsAt (g : list vframe) : Z := match g with [] => 0 | f :: _ => fpts f end.
Definition totalOf (a : list access) : Z := fold_right (fun x n => adur x + n) 0 a.

(** [fs] cut into segments by a [rule] that says whether the pictures [g] collected so far are to be
    closed before the picture [f]. The segments hold consecutive groups, all pictures belong to a
    group or are still pending, and the segments are numbered from [k]. *)
Definition noCut (rule : list vframe -> vframe -> bool) (g : list vframe) : Prop :=
  forall a f b, g = a ++ f :: b -> a <> [] -> rule a f = false.
Inductive segmented (rule : list vframe -> vframe -> bool) : Z -> list vframe -> list fragment -> list vframe -> Prop :=
| sg_end k pend : noCut rule pend -> segmented rule k pend [] pend
| sg_cut k g nxt rest frs pend :
    g <> [] -> noCut rule g -> rule g nxt = true -> segmented rule (k + 1) (nxt :: rest) frs pend ->
    segmented rule k (g ++ nxt :: rest) (mkFragment (k mod 4294967296) (startsAt g) (accesses g nxt) :: frs) pend.

(** The segment index (version 1) at the front of the file: its only reference covers everything from
    the movie fragment to the end of the file, starts right after the index, and announces the segment's
    start and duration. *)
Definition indexed (g : segment) (bs : list box) : Prop :=
  exists p, startOf (gbytes g) (length (gbytes g)) "moof" = Some p /\
  field bs ["sidx"]%string 0 1 = Some 1 /\ field bs ["sidx"]%string 30 2 = Some 1 /\
  field bs ["sidx"]%string 12 8 = Some (gstart g) /\ field bs ["sidx"]%string 20 8 = Some 0 /\
  field bs ["sidx"]%string 32 4 = Some (len (gbytes g) - Z.of_nat p) /\ field bs ["sidx"]%string 36 4 = Some (gdur g).
(** A segment file is the fragment [fr]: it parses, its announced start and duration are right, and
    so are the fields that never change. *)
Definition isFragment (g : segment) (fr : fragment) : Prop :=
  demux (gbytes g) = Some fr /\ gstart g = fbase fr /\ gdur g = totalOf (faccess fr) mod 4294967296 /\
  exists bs, parseFile (gbytes g) = Some bs /\ shapes bs segmentShape /\ indexed g bs /\
    Forall (holds bs) segmentConstants /\ Forall (sized1 bs) segmentSizes.

(** *** The time line a player builds: for each sample its presentation time, duration, bytes and
    whether decoding can start there. *)
Record played := mkPlayed { qtime : Z; qdur : Z; qbytes : bytes; qsync : bool }.
Fixpoint playFrom (t : Z) (l : list access) : list played :=
  match l with
  | [] => []
  | a :: r => mkPlayed (t + acomp a) (adur a) (abytes a) (async a) :: playFrom (t + adur a) r
  end.
Definition play (f : fragment) : list played := playFrom (fbase f) (faccess f).
(** The time line of the pictures themselves, each lasting until the next one. *)
Fixpoint timeline (fs : list vframe) : list played :=
  match fs with
  | f :: ((f' :: _) as r) => mkPlayed (fpts f) (fpts f' - fpts f) (fbytes f) (fintra f) :: timeline r
  | _ => []
  end.

(** The pictures come from a camera or encoder without reordering: decoded when presented, times do
    not go back, and the next one comes within [gap] time units. *)
Fixpoint regular (gap : Z) (fs : list vframe) : Prop :=
  match fs with
  | [] => True
  | f :: r => fpts f = fdts f /\ match r with [] => True | f' :: _ => fpts f <= fpts f' <= fpts f + gap end /\ regular gap r
  end.

(** Closing rules. [within target]: close before a key frame once the segment would last at least
    [target] less its last picture's duration; [reached target]: once it would last [target]. *)
Definition lastPts (g : list vframe) : Z := match rev g with [] => 0 | f :: _ => fpts f end.
Definition within (target : Z) (g : list vframe) (f : vframe) : bool :=
  fintra f && (target - (fpts f - lastPts g) <=? fpts f - startsAt g).
Definition reached (target : Z) (g : list vframe) (f : vframe) : bool :=
  fintra f && (target <=? fpts f - startsAt g).

(** *** Audio: every frame lasts [dur]; a segment starts at the 32 bit time of its first frame. *)
Definition audioAccess (dur : Z) (f : aframe) : access := mkAccess (abuf f) dur 0 true.
Definition audioFragment (dur k : Z) (g : list aframe) : fragment :=
  mkFragment (k mod 4294967296) (match g with [] => 0 | f :: _ => apts f mod 4294967296 end) (map (audioAccess dur) g).
(** The segments that a list of operations must give from the frames [g] already collected: a forced
    cut closes what there is, another one only when the target is reached. *)
Fixpoint audioSegments (dur target k : Z) (g : list aframe) (ops : list aop) : list fragment :=
  match ops with
  | [] => []
  | AddA f :: r => audioSegments dur target k (g ++ [f]) r
  | CutA force :: r =>
      match g with
      | [] => audioSegments dur target k g r
      | _ => if force || (target <=? Z.of_nat (length g) * dur)
             then audioFragment dur k g :: audioSegments dur target (k + 1) [] r
             else audioSegments dur target k g r
      end
  end.
Definition audioFrames (ops : list aop) : list aframe := flat_map (fun o => match o with AddA f => [f] | CutA _ => [] end) ops.
