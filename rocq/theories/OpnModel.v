(* The demuxer filter: opening a source, the table of its streams, and the
   queues that refer to it.

   Modelled:
     src/modules/headDemuxer/HeadDemuxerLibav.cpp  lines 27-88 (construction,
        reset), 229-242 (allocQueue), 270-380 (setURI), 387-402 (configureEvent)
     src/modules/headDemuxer/HeadDemuxerLibav.hh   lines 63-109
     src/Filter.cpp  lines 321-364 (connect, as far as the queue of the writer
        is concerned)
     src/AVFramedQueue.cpp  lines 144-175, 202-256 (which queues can be made)
     src/StreamInfo.hh  lines 67-138
     src/FrameQueue.hh  lines 219, 230 (a queue keeps the pointer it was given)
   doProcessFrame is DmxModel.v.

   Simplifications: libav is an oracle: what opening answers, the streams and
   the packets.  A StreamInfo is known by the opening it was made in and its
   place; those of earlier openings have been deleted.  The text log is left
   out. *)
From Coq Require Import String ZArith List Bool.
From Verif Require Import NamesModel AnnModel DmxModel.
Import ListNotations.
Local Open Scope list_scope.
Local Open Scope Z_scope.

(* libav's sample formats. *)
Inductive libfmt := L_NONE | L_U8 | L_S16 | L_S32 | L_FLT | L_DBL | L_U8P | L_S16P | L_S32P | L_FLTP | L_DBLP.
(* libav's AVMediaType. *)
Inductive libtype := LT_AUDIO | LT_VIDEO | LT_OTHER.

(* A stream as libav describes it.  [vDesc]: the type and name of its codec, if
   libav knows it. *)
Record avstream := mkAv {
  vDesc : option (libtype * string);
  vRate : Z; vCh : Z; vFmt : libfmt;
  vExtra : list Z;
  vNum : Z; vDen : Z
}.

(* HeadDemuxerLibav.cpp 369-380 *)
Definition getSampleFormatFromLibav (f : libfmt) : SampleFmt :=
  match f with
  | L_U8 => U8 | L_S16 => S16 | L_FLT => FLT | L_U8P => U8P | L_S16P => S16P | L_FLTP => FLTP
  | _ => S_NONE
  end.

(* A StreamInfo of the table: its type specific part, if any, and its extra
   data.  The constructor (StreamInfo.hh 119-138) is called without a type and
   sets no pixel format. *)
Record sinfo := mkSi { siInfo : option info; siExtra : list Z }.

(* HeadDemuxerLibav.cpp 308-317 and StreamInfo.hh 97-112 *)
Definition audioInfo (name : string) (v : avstream) : info :=
  let k := getAudioCodecFromLibavString name in
  match k with
  | OPUS | AAC | MP3 => IAudio k S16 (vRate v) (vCh v)
  | G711 => IAudio k U8 8000 1
  | _ => IAudio k (getSampleFormatFromLibav (vFmt v)) (vRate v) (vCh v)
  end.

(* HeadDemuxerLibav.cpp 318-325, StreamInfo.hh 84-96 *)
Definition videoInfo (name : string) : info :=
  let k := getVideoCodecFromLibavString name in IVideo k true (defaultNal k).

(* HeadDemuxerLibav.cpp 334-335 *)
Definition isH264 (i : info) : bool := match i with IVideo H264 _ _ => true | _ => false end.

(* HeadDemuxerLibav.cpp 298-360: one stream.  [filt]: the Annex B filter can be made.  Also told:
   whether one was made (or tried: [av_filter_annexb] is overwritten). *)
Record opened1 := mkOp1 { p1Si : sinfo; p1Psi : psinfo; p1Base : option (Z * Z); p1Filter : option bool }.
(* HeadDemuxerLibav.cpp 298-360. *)
Definition openStream (filt : bool) (v : avstream) : opened1 :=
  match vDesc v with
  | None => mkOp1 (mkSi None []) (mkPsi false false 0) None None
  | Some (t, name) =>
    let i := match t with
             | LT_AUDIO => Some (audioInfo name v)
             | LT_VIDEO => Some (videoInfo name)
             | LT_OTHER => None
             end in
    let split := match i with Some x => isH264 x | None => false end && (4 <? Z.of_nat (List.length (vExtra v))) in
    let annexb := nth 0 (vExtra v) 0 =? 0 in
    if split then
      mkOp1 (mkSi (Some (IVideo H264 true true)) (vExtra v))
            (mkPsi (annexb || filt) annexb 0) (Some (vNum v, vDen v))
            (if annexb then None else Some filt)
    else mkOp1 (mkSi i (vExtra v)) (mkPsi false false 0) (Some (vNum v, vDen v)) None
  end.

(* What libav answers to opening a URI. *)
Inductive answer :=
| NoOpen                                   (* avformat_open_input fails *)
| NoInfo (src : list packet)               (* avformat_find_stream_info fails; the input stays open *)
| Streams (l : list avstream) (filt : bool) (src : list packet).

Record opn := mkOpn {
  oUri : string;
  oTable : list opened1;             (* outputStreamInfos, privateStreamInfos: key = place *)
  oGen : nat;                        (* openings so far *)
  oDx : option demux;                (* av_ctx and the packet in hand *)
  oFilter : bool;                    (* av_filter_annexb is not NULL *)
  oLost : nat;                       (* filters no longer referred to and not closed *)
  oQueues : list (Z * nat)           (* connected writers; the opening their StreamInfo is of *)
}.

(* HeadDemuxerLibav.cpp 27-45 *)
Definition created : opn := mkOpn EmptyString [] 0 None false 0 [].

(* privateStreamInfos (HeadDemuxerLibav.cpp 362-363): the numbers from 0 on. *)
Definition infosOf (t : list opened1) : Z -> option psinfo :=
  fun k => if k <? 0 then None else option_map p1Psi (nth_error t (Z.to_nat k)).

(* HeadDemuxerLibav.cpp 343-351: the filters made while going through the streams: whether the last
   one is there, and how many were overwritten. *)
Fixpoint filters (cur : bool) (lost : nat) (l : list opened1) : bool * nat :=
  match l with
  | [] => (cur, lost)
  | x :: r =>
    match p1Filter x with
    | None => filters cur lost r
    | Some b => filters b (if cur then S lost else lost) r
    end
  end.

(* HeadDemuxerLibav.cpp 270-367, with reset (56-88): the previous source is closed whatever comes. *)
Definition setURI (o : opn) (uri : string) (a : answer) : opn * bool :=
  match a with
  | NoOpen => (mkOpn uri [] (S (oGen o)) None false (oLost o) (oQueues o), false)
  | NoInfo src => (mkOpn uri [] (S (oGen o)) (Some (opened (infosOf []) src)) false (oLost o) (oQueues o), false)
  | Streams l filt src =>
    let t := map (openStream filt) l in
    let '(f, lost) := filters false (oLost o) t in
    (mkOpn uri t (S (oGen o)) (Some (opened (infosOf t) src)) f lost (oQueues o), true)
  end.

(* What can happen to the filter. *)
Inductive op :=
| Open (uri : string) (a : answer)
| Connect (w : Z)
| Disconnect (w : Z)
| Look (w : Z).       (* the filter at the other end asks for the stream's information *)

Inductive out := Done (b : bool) | Info (i : sinfo).

(* Model's own: the queue of a writer. *)
Definition queueOf (w : Z) (l : list (Z * nat)) : option nat := option_map snd (find (fun x => fst x =? w) l).

(* HeadDemuxerLibav.cpp 229-242 (called at Filter.cpp 349-353). [None]: a null StreamInfo is used, or a
   pixel format that was never set is read (raw video). *)
Definition allocQueue (o : opn) (w : Z) : option bool :=
  if w <? 0 then None
  else match nth_error (oTable o) (Z.to_nat w) with
       | None => None
       | Some x =>
         match siInfo (p1Si x) with
         | None => Some false
         | Some (IVideo RAW _ _) => None
         | Some i => Some (queueMade i)
         end
       end.

(* One operation, Filter.cpp 321-364 for Connect; the reader at the other end
   is free.  Look reads the queue's StreamInfo (FrameQueue.hh 219).  [None]:
   freed or missing memory is used. *)
Definition step (o : opn) (x : op) : option (opn * out) :=
  match x with
  | Open uri a => let '(o', b) := setURI o uri a in Some (o', Done b)
  | Connect w =>
    (* Filter.cpp 286-308: at most sixteen writers, no two with one number *)
    if 16 <=? Z.of_nat (List.length (oQueues o)) then Some (o, Done false)
    else match queueOf w (oQueues o) with
    | Some _ => Some (o, Done false)
    | None =>
      match allocQueue o w with
      | None => None
      | Some false => Some (o, Done false)
      | Some true =>
        Some (mkOpn (oUri o) (oTable o) (oGen o) (oDx o) (oFilter o) (oLost o) ((w, oGen o) :: oQueues o), Done true)
      end
    end
  | Disconnect w =>
    Some (mkOpn (oUri o) (oTable o) (oGen o) (oDx o) (oFilter o) (oLost o)
            (filter (fun y => negb (fst y =? w)) (oQueues o)), Done true)
  | Look w =>
    match queueOf w (oQueues o) with
    | None => Some (o, Done false)
    | Some g =>
      if Nat.eqb g (oGen o)
      then match nth_error (oTable o) (Z.to_nat w) with Some y => Some (o, Info (p1Si y)) | None => None end
      else None
    end
  end.

(* Model's own: a history of the filter. *)
Fixpoint run (o : opn) (l : list op) : option (opn * list out) :=
  match l with
  | [] => Some (o, [])
  | x :: r =>
    match step o x with
    | None => None
    | Some (o1, y) => match run o1 r with Some (o2, ys) => Some (o2, y :: ys) | None => None end
    end
  end.
