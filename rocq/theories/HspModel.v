(** Model of the filter that takes the parameter sets from the session description and puts start codes before
    the units received (src/modules/receiver/H264VideoSdpParser.cpp), and of the stream info made from it
    (src/modules/receiver/SourceManager.cpp). live555 is not modelled: the records parseSPropParameterSets
    decodes are given, the input source copies as much of a unit as the space allows, and a request comes from
    QueueSink::continuePlaying (QueueSink.cpp 46-73). *)
From Verif Require Import Base Bytes TxModel.
Local Open Scope list_scope.
Local Open Scope Z_scope.

(** H264VideoSdpParser.cpp 28. *)
Definition startCode : bytes := [0; 0; 0; 1].
(** MAX_EXTRADATA_SIZE, H264VideoSdpParser.hh 28. *)
Definition maxExtradata : Z := 128.

(** H264VideoSdpParser.hh 70-75, with the size and the time of live555's FramedSource that the filter leaves as
    they are when it hands on nothing, and the stream info of the writer (outputStreamInfos,
    SourceManager.cpp 236-243), reduced to its extradata. *)
Record hfilter := mkF { records : list bytes; injected : nat; extradata : bytes; frameSize : Z; frameTime : Z; info : option bytes }.
(** The constructor, H264VideoSdpParser.cpp 35-39. [g] is what the memory of fFrameSize held; live555 sets the
    time to zero. *)
Definition newFilter (rs : list bytes) (g : Z) : hfilter := mkF rs 0 [] g 0 None.

(** A request comes with the space of the buffer and the unit that the input source will deliver if asked, with
    its time. *)
Inductive hevent := Request (space : Z) (unit : bytes) (time : Z) | Connect.
(** What the sink gets: the announced size, the bytes written to its buffer (None if it was not touched), the time
    and the number of truncated bytes. Broken: memory outside a buffer was written. *)
Inductive houtcome := Handed (size : Z) (written : option bytes) (time truncated : Z) | Info (extra : bytes) | Broken.

(** doGetNextFrame 46-59 and afterGettingFrame1 70-86. *)
Definition request (space : Z) (u : bytes) (t : Z) (f : hfilter) : hfilter * houtcome :=
  match nth_error (records f) (injected f) with
  | Some r =>
      let e := extradata f ++ startCode ++ r in
      if maxExtradata <? len e then (f, Broken)
      else (mkF (records f) (S (injected f)) e (frameSize f) (frameTime f) (info f),
            Handed (frameSize f) None (frameTime f) 0)
  | None =>
      let room := w32 (space - len startCode) in
      let got := firstn (Z.to_nat room) u in
      if space <? len startCode + len got then (f, Broken)
      else let n := w32 (len got + len startCode) in
           (mkF (records f) (injected f) (extradata f) n t (info f),
            Handed n (Some (startCode ++ got)) t (len u - len got))
  end.
(** allocQueue, SourceManager.cpp 230-260, with createStreamInfo 50-101 and fillH264or5ExtraData 34-48 and
    StreamInfo::setExtraData (StreamInfo.hh 67-78): the stream info is made the first time and kept; the queue gets
    it. *)
Definition connect (f : hfilter) : hfilter * houtcome :=
  let e := match info f with Some e => e | None => extradata f end in
  (mkF (records f) (injected f) (extradata f) (frameSize f) (frameTime f) (Some e), Info e).
(** Model's own: a history of the filter. *)
Definition hstep (e : hevent) (f : hfilter) : hfilter * houtcome :=
  match e with Request s u t => request s u t f | Connect => connect f end.
(** A history, up to the first write outside a buffer. *)
Fixpoint hrun (es : list hevent) (f : hfilter) : hfilter * list houtcome :=
  match es with
  | [] => (f, [])
  | e :: es => match hstep e f with
               | (f', Broken) => (f', [Broken])
               | (f', o) => let (f'', os) := hrun es f' in (f'', o :: os)
               end
  end.
