(* How a stream is announced to RTSP clients, what the receiver of this
   program makes of such an announcement, and where a plain RTP connection
   sends to.

   Modelled:
     src/modules/transmitter/Connection.cpp  lines 113-186 (raw subsessions),
        323-337, 339-427 (set-up and end of a plain RTP connection), 440-464,
        484-523
     src/modules/transmitter/AudioQueueServerMediaSubsession.cpp  lines 54-105
     src/modules/transmitter/ADTSQueueServerMediaSubsession.cpp   lines 100-111
     src/modules/transmitter/H264QueueServerMediaSubsession.cpp   lines 47-69
     src/modules/transmitter/H265QueueServerMediaSubsession.cpp   lines 47-71
     src/modules/transmitter/VP8QueueServerMediaSubsession.cpp    lines 46-58
     src/modules/transmitter/MPEGTSQueueServerMediaSubsession.cpp lines 110-140
     src/modules/transmitter/CustomMPEG4GenericRTPSink.cpp        lines 65-73, 116-161
     src/modules/receiver/SourceManager.cpp  lines 50-101
     src/StreamInfo.hh                       lines 82-138
     src/AVFramedQueue.cpp                   lines 144-175, 202-256

   Simplifications: the text of an announcement is put together by the RTSP
   library from what the program's sink says of itself; that part
   (`sdpTrack`, `sdpSession`) is the library's contract and not code of this
   repository.  Which payload names the library itself is able to receive is
   not modelled: a stream it refuses never reaches the receiver's filter. *)
From Coq Require Import Ascii String ZArith List Bool.
From Verif Require Import JsonModel CtlModel NamesModel SdpModel.
Import ListNotations.
Local Open Scope list_scope.
Local Open Scope Z_scope.

(* Model's own: unsigned int arithmetic. *)
Definition U32 : Z := 4294967296.

(* Model's own: equality of enumerators. *)
Definition acodec_eqb (a b : ACodecType) : bool :=
  match a, b with
  | AC_NONE, AC_NONE | G711, G711 | PCMU, PCMU | OPUS, OPUS | PCM, PCM | AAC, AAC | MP3, MP3 => true
  | _, _ => false
  end.
(* Model's own: equality of enumerators. *)
Definition fmt_eqb (a b : SampleFmt) : bool :=
  match a, b with
  | S_NONE, S_NONE | U8, U8 | S16, S16 | FLT, FLT | U8P, U8P | S16P, S16P | FLTP, FLTP => true
  | _, _ => false
  end.

(* What a reader of the transmitter carries: the StreamInfo of its queue
   (SinkManager.cpp 478-488).  [Mux] is the one subsession of an MPEG-TS
   connection. *)
Inductive stream :=
| Audio (k : ACodecType) (f : SampleFmt) (rate ch : Z)
| Video (k : VCodecType)
| Mux.

(* What an RTPSink says of itself: sdpMediaType, rtpPayloadType,
   rtpPayloadFormatName, rtpTimestampFrequency, numChannels. *)
Record sink := mkSink { kMedium : str; kPt : Z; kName : str; kFreq : Z; kCh : Z }.

(* Connection.cpp 484-503 and AudioQueueServerMediaSubsession.cpp 76-94: the
   payload type and the name. *)
Definition payload (dyn : Z) (k : ACodecType) (f : SampleFmt) (rate ch : Z) : Z * str :=
  if acodec_eqb k PCM && fmt_eqb f S16 then
    (if rate =? 44100 then (if ch =? 2 then 10 else if ch =? 1 then 11 else dyn) else dyn, lit "L16")
  else if (acodec_eqb k PCMU || acodec_eqb k G711) && (rate =? 8000) && (ch =? 1) then
    (0, lit (getAudioCodecAsString k))
  else (dyn, lit (getAudioCodecAsString k)).

(* The library's MPEG1or2AudioRTPSink: static type 14, 90 kHz clock. *)
Definition mpaSink : sink := mkSink (lit "audio") 14 (lit "MPA") 90000 1.

(* AudioQueueServerMediaSubsession.cpp 96-104, Connection.cpp 505-516 *)
Definition simpleAudioSink (dyn : Z) (k : ACodecType) (f : SampleFmt) (rate ch : Z) : sink :=
  if acodec_eqb k MP3 then mpaSink
  else let '(pt, name) := payload dyn k f rate ch in mkSink (lit "audio") pt name rate ch.

(* ADTSQueueServerMediaSubsession.cpp 106-111, CustomMPEG4GenericRTPSink.cpp
   65-73, 116-119 *)
Definition adtsSink (dyn rate ch : Z) : sink := mkSink (lit "audio") dyn (lit "MPEG4-GENERIC") rate ch.

(* H264QueueServerMediaSubsession.cpp 55-69, H265QueueServerMediaSubsession.cpp
   54-71, VP8QueueServerMediaSubsession.cpp 53-58; the library's video sinks
   name themselves and use a 90 kHz clock.  Other codecs make no subsession
   (Connection.cpp 148-155). *)
Definition videoSink (dyn : Z) (k : VCodecType) : option sink :=
  match k with
  | H264 => Some (mkSink (lit "video") dyn (lit "H264") 90000 1)
  | H265 => Some (mkSink (lit "video") dyn (lit "H265") 90000 1)
  | VP8 => Some (mkSink (lit "video") dyn (lit "VP8") 90000 1)
  | _ => None
  end.

(* Connection.cpp 134-186; MPEGTSQueueServerMediaSubsession.cpp 134-140 *)
Definition rtspSink (dyn : Z) (s : stream) : option sink :=
  match s with
  | Audio k f rate ch => Some (if acodec_eqb k AAC then adtsSink dyn rate ch else simpleAudioSink dyn k f rate ch)
  | Video k => videoSink dyn k
  | Mux => Some (mkSink (lit "video") 33 (lit "MP2T") 90000 1)
  end.

(* AudioQueueServerMediaSubsession.cpp 54-70 (unsigned arithmetic);
   ADTSQueueServerMediaSubsession.cpp 100-104;
   H264QueueServerMediaSubsession.cpp 50, H265QueueServerMediaSubsession.cpp 49,
   VP8QueueServerMediaSubsession.cpp 48, MPEGTSQueueServerMediaSubsession.cpp 116 *)
Definition estBitrate (s : stream) : Z :=
  match s with
  | Audio k f rate ch =>
    if acodec_eqb k AAC then 128
    else
      let bits := (if fmt_eqb f S16 then rate * 2 * ch
                   else if fmt_eqb f U8 then rate * 1 * ch else 0) mod U32 in
      if 0 <? bits then ((bits + 500) mod U32) / 1000 else 128
  | _ => 2000
  end.

(* CustomMPEG4GenericRTPSink.cpp 138-157: the "a=fmtp:" line of AAC, and the
   size of the buffer it is printed into (lengths of the format, of two
   numbers, of the mode and of the configuration). *)
Definition aacFmtp (pt : Z) (config : str) : str :=
  unsignedText pt ++ lit " streamtype=5;profile-level-id=1;mode=AAC-hbr;sizelength=13;indexlength=3;indexdeltalength=3;config=" ++ config.
(* CustomMPEG4GenericRTPSink.cpp 138-157. *)
Definition aacFormat : str :=
  lit "a=fmtp:%d streamtype=%d;profile-level-id=1;mode=%s;sizelength=13;indexlength=3;indexdeltalength=3;config=%s" ++ [CR; LF].
(* CustomMPEG4GenericRTPSink.cpp 138-157. *)
Definition aacBuffer (config : str) : nat :=
  List.length aacFormat + 3 + 3 + List.length (lit "AAC-hbr") + List.length config.

(* The library: OnDemandServerMediaSubsession::setSDPLinesFromRTPSink and
   RTPSink::rtpmapLine.  [aux] is the sink's own "a=fmtp:" line, if any. *)
Definition rtpmap (k : sink) : list str :=
  if kPt k <? 96 then []
  else [lit "a=rtpmap:" ++ unsignedText (kPt k) ++ lit " " ++ kName k ++ lit "/" ++ unsignedText (kFreq k)
        ++ (if kCh k =? 1 then [] else lit "/" ++ unsignedText (kCh k))].

(* OnDemandServerMediaSubsession::setSDPLinesFromRTPSink (live555). *)
Definition sdpTrack (n est : Z) (k : sink) (aux : option str) : list str :=
  [lit "m=" ++ kMedium k ++ lit " " ++ unsignedText 0 ++ lit " RTP/AVP " ++ unsignedText (kPt k);
   lit "c=IN IP4 0.0.0.0";
   lit "b=AS:" ++ unsignedText est]
  ++ rtpmap k
  ++ match aux with Some r => [lit "a=fmtp:" ++ r] | None => [] end
  ++ [lit "a=control:track" ++ unsignedText n].

(* The library: the tracks of a session in the order they were added; track n
   gets dynamic type 96 + n - 1. *)
Fixpoint sdpTracks (n : Z) (l : list (stream * option str)) : list str :=
  match l with
  | [] => []
  | (s, aux) :: r =>
    match rtspSink (95 + n) s with
    | Some k => sdpTrack n (estBitrate s) k aux ++ sdpTracks (n + 1) r
    | None => sdpTracks n r
    end
  end.
(* ServerMediaSession::generateSDPDescription (live555). *)
Definition crlfLines (l : list str) : str := flat_map (fun x => x ++ [CR; LF]) l.
(* ServerMediaSession::generateSDPDescription (live555). *)
Definition sdpSession (head : list str) (l : list (stream * option str)) : str :=
  crlfLines (head ++ sdpTracks 1 l).

(* What the library's MediaSubsession tells the receiver. *)
Record heard := mkHeard { hMedium : str; hPt : Z; hName : str; hFreq : Z; hCh : Z }.

(* A StreamInfo (StreamInfo.hh 39-63). *)
Inductive info :=
| IAudio (k : ACodecType) (f : SampleFmt) (rate ch : Z)
| IVideo (k : VCodecType) (annexb framed : bool).

(* StreamInfo.hh 97-112 after the constructor's defaults (123-128); rate and
   channels are set afterwards by the caller. *)
Definition defaultFmt (k : ACodecType) : SampleFmt :=
  match k with OPUS | AAC | MP3 => S16 | G711 => U8 | _ => S_NONE end.
(* StreamInfo.hh 84-96 *)
Definition defaultNal (k : VCodecType) : bool := match k with H264 | H265 => true | _ => false end.

(* SourceManager.cpp 50-101.  A medium that is neither audio nor video has no
   StreamInfo. *)
Definition createStreamInfo (h : heard) : option info :=
  if streq (hMedium h) (lit "audio") then
    let mk k := Some (IAudio k (defaultFmt k) (hFreq h) (hCh h)) in
    if hPt h =? 0 then mk G711
    else if streq (hName h) (lit "OPUS") then mk OPUS
    else if streq (hName h) (lit "MPEG4-GENERIC") then mk AAC
    else if streq (hName h) (lit "PCMU") then mk PCMU
    else if streq (hName h) (lit "PCM") then mk PCM
    else None
  else if streq (hMedium h) (lit "video") then
    let mk k := Some (IVideo k (defaultNal k) (defaultNal k)) in
    if streq (hName h) (lit "H264") then mk H264
    else if streq (hName h) (lit "H265") then mk H265
    else if streq (hName h) (lit "VP8") then mk VP8
    else if streq (hName h) (lit "MJPEG") then mk MJPEG
    else None
  else None.

(* Whether a queue can be made for a stream: AVFramedQueue.cpp 202-256 (audio)
   and 144-175 (video); a received or demuxed stream has no pixel format. *)
Definition queueMade (i : info) : bool :=
  match i with
  | IAudio k f _ _ =>
    match k with
    | OPUS | AAC | MP3 | G711 => true
    | PCMU | PCM => match f with S_NONE => false | _ => true end
    | AC_NONE => false
    end
  | IVideo k _ _ => match k with H264 | H265 | VP8 => true | _ => false end
  end.

(* ------------------------------------------------------------------ *)
(* A plain RTP connection. *)

(* The host: what an address text means, and which of the program's
   attempts to open a socket succeed (attempt, port asked for). *)
Record host := mkHost {
  inet : str -> option Z;
  opens : nat -> Z -> bool
}.

(* The library's our_inet_addr is inet_addr: INADDR_NONE for a text that is
   no address. *)
Definition our_inet_addr (h : host) (ip : str) : Z :=
  match inet h ip with Some a => a | None => U32 - 1 end.

(* The library's Port: a 16 bit number. *)
Definition port16 (p : Z) : Z := p mod 65536.

Definition TTL : Z := 255.                     (* Connection.hh 38 *)
Definition INITIAL_SERVER_PORT : Z := 6970.    (* Connection.hh 39 *)

(* What is done with sockets, sinks and sources, in order. *)
Inductive act :=
| SockOpen (p : Z) | SockClose (p : Z)
| NewSink (k : sink) | NewFramer | NewRtcp
| SinkStart | SinkStop | CloseRtcp
| CloseSink | CloseSource.   (* the library offers them; the code never does them *)

(* Connection.cpp 388-397.  [k] counts the rounds; a round is two attempts.
   [None]: still searching when the fuel is spent. *)
Definition opened (b : bool) (p : Z) : list act := if b then [SockOpen p] else [].
(* Model's own: what deleting a socket does. *)
Definition closed (b : bool) (p : Z) : list act := if b then [SockClose p] else [].
(* Connection.cpp 388-397. *)
Fixpoint search (h : host) (fuel : nat) (k : nat) (serverPort : Z) : option (Z * Z) * list act :=
  match fuel with
  | O => (None, [])
  | S fuel' =>
    let p := port16 serverPort in
    let q := port16 (serverPort + 1) in
    let a := opens h (2 * k) p in
    let b := opens h (2 * k + 1) q in
    if a && b then (Some (p, q), [SockOpen p; SockOpen q])
    else
      let '(r, l) := search h fuel' (S k) ((serverPort + 2) mod U32) in
      (r, opened a p ++ opened b q ++ closed a p ++ closed b q ++ l)
  end.

(* Connection.cpp 440-464 and 484-523: the sink, and whether a framer is put
   before the source. *)
Definition stdSink (s : stream) : option (sink * bool) :=
  match s with
  | Video k =>
    match videoSink 96 k with
    | Some x => Some (x, match k with VP8 => false | _ => true end)
    | None => None
    end
  | Audio k f rate ch =>
    if acodec_eqb k MP3 then Some (mpaSink, false)
    else if acodec_eqb k AAC then
      Some (adtsSink (fst (payload 97 k f rate ch)) rate ch, true)
    else Some (simpleAudioSink 97 k f rate ch, false)
  | Mux => None
  end.

Record conn := mkConn {
  cAddr : Z;                 (* destination *)
  cRtp : Z; cRtcp : Z;       (* its ports *)
  cTtl : Z;
  cSrc : Z; cSrcRtcp : Z;    (* our ports *)
  cSink : sink
}.
(* Model's own: how the set up ends. *)
Inductive outcome := Refused | Searching | Sending (c : conn).

(* Connection.cpp 323-337: what the destructor does.  It does not close the
   sink nor the source. *)
Definition teardown (socks : option (Z * Z)) (hasSink : bool) : list act :=
  (if hasSink then [SinkStop; CloseRtcp] else []) ++
  match socks with Some (p, q) => [SockClose p; SockClose q] | None => [] end.

(* Connection.cpp 53-64, 339-427; SinkManager deletes a connection whose set-up
   fails (SinkManager.cpp 352-356).  [port] is the int of the request, turned
   into an unsigned by the constructor (Connection.cpp 314-319). *)
Definition connect (h : host) (fuel : nat) (ip : str) (port : Z) (s : stream) : outcome * list act :=
  let addr := our_inet_addr h ip in
  let fPort := port mod U32 in
  if negb (fPort mod 2 =? 0) then (Refused, teardown None false)
  else
    match search h fuel 0 INITIAL_SERVER_PORT with
    | (None, l) => (Searching, l)
    | (Some (p, q), l) =>
      match stdSink s with
      | None => (Refused, l ++ teardown (Some (p, q)) false)
      | Some (k, framer) =>
        (Sending (mkConn addr (port16 fPort) (port16 ((fPort + 1) mod U32)) TTL p q k),
         l ++ [NewSink k] ++ (if framer then [NewFramer] else []) ++ [NewRtcp; SinkStart])
      end
    end.

(* The connection is removed: Connection.cpp 323-337. *)
Definition remove (c : conn) : list act := teardown (Some (cSrc c, cSrcRtcp c)) true.
