(** Model of the reports of state: what getState answers about each filter, as a JSON object.

    The filters are those of MixModel, VidModel, AdcModel, AenModel, EncModel and MpdModel; events are those of EvtModel.
    Simplifications: the statistics of the transmitter are whole numbers given from outside (StatModel models how they come
    about); the URI of a session and the library's answers are parameters; the receiver's report, the cameras' (V4lModel)
    and the numbers of the paths (DlyModel) are not here. *)
From Coq Require Import Ascii String.
From Verif Require Import Base ZMap F32 JsonModel NamesModel CtlModel FtxModel EvtModel.
From Verif Require PipeModel MixModel VidModel AdcModel AenModel EncModel MpdModel.
Local Open Scope string_scope.
Local Open Scope list_scope.
Local Open Scope Z_scope.

(** Object::Add, src/Jzon.cpp 573-580, one after the other: nothing is replaced. *)
Definition object (l : list (string * node)) : fields := map (fun '(k, n) => (lit k, n)) l.
(** The cast (int). *)
Definition cast (z : Z) : Z := (z + 2 ^ 31) mod 2 ^ 32 - 2 ^ 31.
(** Model's own. *)
Definition texts (s : string) : node := ofText (lit s).

(** *** The splitter, src/modules/videoSplitter/VideoSplitter.cpp: VidModel's, with the time between frames and the degrees of
    its crops (CropConfig 32-47). *)
Record splitter := mkSpl { ftime : Z; base : VidModel.splitter; deg : Z -> Z }.
(** specificWriterConfig 267-276. *)
Definition addCrop (id : Z) (s : splitter) : splitter :=
  if fst (VidModel.addCrop id (base s))
  then mkSpl (ftime s) (snd (VidModel.addCrop id (base s))) (fun i => if i =? id then 0 else deg s i) else s.
(** configCrop0 186-201. *)
Definition setCrop (junk : VidModel.pixels) (id w h x y d : Z) (s : splitter) : splitter :=
  let r := VidModel.configCrop junk id w h x y d (base s) in
  if fst r then mkSpl (ftime s) (snd r) (fun i => if i =? id then d else deg s i) else s.

(** *** The transmitter, src/modules/transmitter/SinkManager.cpp 643-711. A stream: its SSRC, and now (for the bitrate: on
    average), least and most: bitrate, loss, jitter, delay (Connection.hh 415-467). *)
Record cstat := mkCs { ssrc : Z; rate : Z * Z * Z; loss : Z * Z * Z; jitter : Z * Z * Z; delay : Z * Z * Z }.
(** Model's own: what the connections report, SinkManager.cpp 643-711. *)
Inductive peer := Rtsp (name uri : str) | Rtp (ip : str) (port : Z).
(** Model's own: what the connections report, SinkManager.cpp 643-711. *)
Record conn := mkConn { who : peer; streams : list cstat; readers : list Z }.
(** (float) of a size_t. *)
Definition toF (z : Z) : Z := fl (z * one) 1.
(** What is added for one stream, 661-673 and 681-693. *)
Definition statNodes (s : cstat) : fields :=
  let '(ra, rl, rm) := rate s in let '(la, ll, lm) := loss s in let '(ja, jl, jm) := jitter s in let '(da, dl, dm) := delay s in
  object [("SSRC", ofText (decimal 20 (ssrc s))); ("avgBitrateInKbps", floatNode (toF ra)); ("minBitrateInKbps", floatNode (toF rl)); ("maxBitrateInKbps", floatNode (toF rm));
    ("packetLossRatio", ofInt la); ("minPacketLossRatio", ofInt ll); ("maxPacketLossRatio", ofInt lm);
    ("jitterInMicroseconds", ofInt (cast ja)); ("minJitterInMicroseconds", ofInt (cast jl)); ("maxJitterInMicroseconds", ofInt (cast jm));
    ("roundTripDelayMilliseconds", ofInt (cast da)); ("minRoundTripDelayMilliseconds", ofInt (cast dl)); ("maxRoundTripDelayMilliseconds", ofInt (cast dm))].
(** The loops 660-676, 680-696: one object, declared at 655, takes the values of all streams; each time a copy of it is added. *)
Fixpoint statList (obj : fields) (l : list cstat) : list node :=
  match l with [] => [] | s :: t => let obj := obj ++ statNodes s in Obj obj :: statList obj t end.
(** SinkManager.cpp 643-711. *)
Definition connNode (c : conn) : node :=
  Obj (object (match who c with Rtsp n u => [("name", ofText n); ("uri", ofText u)] | Rtp ip p => [("ip", ofText ip); ("port", ofText (decimal 20 p))] end ++
    [("subsessionsStats", Arr (statList [] (streams c))); ("readers", Arr (map ofInt (readers c)))])).

(** *** The demuxer, src/modules/headDemuxer/HeadDemuxerLibav.cpp 244-268: the numbers of the enumerators are written. *)
Inductive dmxInfo := DAudio (codec rate chans fmt : Z) | DVideo (codec : Z).
(** HeadDemuxerLibav.cpp 244-268. *)
Definition streamNode (x : Z * dmxInfo) : node :=
  Obj (object (("wId", ofInt (fst x)) :: match snd x with
    | DAudio c r n f => [("type", ofInt 0); ("codec", ofInt c); ("sampleRate", ofInt (cast r)); ("channels", ofInt (cast n)); ("sampleFormat", ofInt f)]
    | DVideo c => [("type", ofInt 1); ("codec", ofInt c)] end)).

(** *** A filter with the state its report is made of. *)
Inductive state :=
| AMix (maxc : Z) (m : MixModel.mixer) | VMix (m : VidModel.vmixer) | Split (s : splitter) | Rsm | ADec (s : AdcModel.adec) | AEnc (s : AenModel.enc)
| VEnc (e : EncModel.enc) | VDec (c : VCodecType) (w h : Z) | Dash (d : MpdModel.dasher) | Dmx (uri : str) (l : zmap dmxInfo) | Shm (c : VCodecType) (key id : Z) | Tx (l : zmap conn).

(** AudioMixer.cpp 485-490. *)
Definition gainNode (x : Z * Z) : node := Obj (object [("id", ofInt (fst x)); ("gain", floatNode (snd x))]).
(** VideoMixer.cpp 337-348. *)
Definition channelNode (x : Z * VidModel.chan) : node :=
  Obj (object [("id", ofInt (fst x)); ("width", floatNode (VidModel.cw (snd x))); ("height", floatNode (VidModel.ch (snd x))); ("x", floatNode (VidModel.cx (snd x)));
    ("y", floatNode (VidModel.cy (snd x))); ("layer", ofInt (VidModel.clayer (snd x))); ("enabled", ofBool (VidModel.cen (snd x))); ("opacity", floatNode (VidModel.cop (snd x)))]).
(** VideoSplitter.cpp 172-181. *)
Definition cropNode (s : splitter) (x : Z * VidModel.crop) : node :=
  Obj (object [("id", ofInt (fst x)); ("width", ofInt (VidModel.kw (snd x))); ("height", ofInt (VidModel.kh (snd x))); ("x", ofInt (VidModel.kx (snd x))); ("y", ofInt (VidModel.ky (snd x)));
    ("degree", ofInt (deg s (fst x)))]).
(** The keys of the map segmenters of src/modules/dasher/Dasher.cpp 435-437, in order: the inputs of both kinds. *)
Definition segmenters (d : MpdModel.dasher) : list Z :=
  mkeys (fold_left (fun m k => mset k tt m) (mkeys (MpdModel.vslots d) ++ mkeys (MpdModel.aslots d)) ([] : zmap unit)).

(** doGetState of each class: AudioMixer.cpp 475-493, VideoMixer.cpp 329-351, VideoSplitter.cpp 168-184, VideoResampler.cpp 229-232,
    AudioDecoderLibav.cpp 375-381, AudioEncoderLibav.cpp 363-368, VideoEncoderX264or5.cpp 259-272, VideoDecoderLibav.cpp 233-242,
    Dasher.cpp 422-440, HeadDemuxerLibav.cpp 244-268, SharedMemory.cpp 165-170, SinkManager.cpp 643-711. *)
Definition report (st : state) : fields :=
  match st with
  | AMix n m => object [("channels", ofInt (MixModel.chans m)); ("sampleRate", ofInt (MixModel.rate m)); ("sampleFormat", texts (getSampleFormatAsString FLTP));
      ("maxChannels", ofInt n); ("masterGain", floatNode (MixModel.master m)); ("gains", Arr (map gainNode (MixModel.gains m)))]
  | VMix m => object [("width", ofInt (VidModel.ow m)); ("height", ofInt (VidModel.oh m)); ("maxChannels", ofInt (VidModel.maxCh m)); ("channels", Arr (map channelNode (VidModel.cfg m)))]
  | Split s => object [("frameTime", ofInt (cast (ftime s))); ("crops", Arr (map (cropNode s) (VidModel.crops (base s))))]
  | Rsm => []
  | ADec s => object [("codec", texts (getAudioCodecAsString (AdcModel.fCodec s))); ("sampleRate", ofInt (AdcModel.prate (AdcModel.out s)));
      ("channels", ofInt (AdcModel.pch (AdcModel.out s))); ("sampleFormat", texts (getSampleFormatAsString (AdcModel.pfmt (AdcModel.out s))))]
  | AEnc s => object [("codec", texts (getAudioCodecAsString (AenModel.ecodec s))); ("sampleRate", ofInt (AenModel.erate s)); ("channels", ofInt (AenModel.ech s))]
  | VEnc e => let s := EncModel.set e in
      object [("bitrate", ofInt (cast (EncModel.bitrate s))); ("fps", ofInt (cast (EncModel.fps s))); ("gop", ofInt (cast (EncModel.gop s))); ("gopTime", ofInt (cast (EncModel.gopTime s)));
        ("refTime", ofText (intText (EncModel.refTime e))); ("lookahead", ofInt (cast (EncModel.lookahead s))); ("threads", ofInt (cast (EncModel.threads s)));
        ("annexb", ofBool (EncModel.annexb s)); ("bframes", ofInt (cast (EncModel.bFrames s))); ("preset", texts (EncModel.preset s))]
  | VDec c w h => object [("inputInfo", Obj (object [("codec", texts (getVideoCodecAsString c)); ("width", ofInt (cast w)); ("height", ofInt (cast h))]))]
  | Dash d => object ([("folder", ofText (MpdModel.basePath d)); ("baseName", ofText (MpdModel.baseName d));
      ("mpdURI", ofText (match MpdModel.mgr d with Some _ => MpdModel.mpdPath d | None => [] end)); ("segDurInSec", ofInt (cast (MpdModel.segDur d)))] ++
      match MpdModel.mgr d with Some m => [("maxSegments", ofInt (cast (MpdModel.maxSeg m))); ("minBufferTime", ofInt (cast (MpdModel.minBufferTime m)))] | None => [] end ++
      [("readers", Arr (map ofInt (segmenters d)))])
  | Dmx u l => object [("uri", ofText u); ("streams", Arr (map streamNode l))]
  | Shm c k i => object [("codec", texts (getVideoCodecAsString c)); ("key", ofInt (cast k)); ("memoryId", ofInt (cast i))]
  | Tx l => object [("sessions", Arr (map (fun x => connNode (snd x)) l))]
  end.

(** The types, set by the constructors; getState, src/Filter.cpp 469-475, after src/PipelineManager.cpp 491-493. *)
Definition typeOf (st : state) : PipeModel.ftype :=
  match st with
  | AMix _ _ => PipeModel.AUDIO_MIXER | VMix _ => PipeModel.VIDEO_MIXER | Split _ => PipeModel.VIDEO_SPLITTER | Rsm => PipeModel.VIDEO_RESAMPLER
  | ADec _ => PipeModel.AUDIO_DECODER | AEnc _ => PipeModel.AUDIO_ENCODER | VEnc _ => PipeModel.VIDEO_ENCODER | VDec _ _ _ => PipeModel.VIDEO_DECODER
  | Dash _ => PipeModel.DASHER | Dmx _ _ => PipeModel.DEMUXER | Shm _ _ _ => PipeModel.SHARED_MEMORY | Tx _ => PipeModel.TRANSMITTER
  end.
(** Filter.cpp 469-475, PipelineManager.cpp 491-493. *)
Definition filterNode (id : Z) (r : FilterRole) (st : state) : fields :=
  object [("id", ofInt id); ("type", texts (getFilterTypeAsString (typeOf st))); ("role", texts (getRoleAsString r))] ++ report st.
(** The list of filters, src/PipelineManager.cpp 490-497. *)
Definition filtersNode (l : zmap (FilterRole * state)) : node := Arr (map (fun x => Obj (filterNode (fst x) (fst (snd x)) (snd (snd x)))) l).

(** *** Events sent to a filter. The environment: the contents of new memory, the answers of the audio libraries, whether
    the folder of the dasher is writable. *)
Record env := mkEnv { junk : VidModel.pixels; alloc : AdcModel.params -> AdcModel.params -> bool; init : AdcModel.params -> AdcModel.params -> bool;
                      lib : AenModel.answers; writable : bool }.
(** What EvtModel needs of the filter; filters without events of EvtModel take none (their maps, src/Filter.hh 228, are empty). *)
Definition view (st : state) : option filter :=
  match st with
  | AMix _ _ => Some AudioMixer | VMix m => Some (VideoMixer m) | Split _ => Some Splitter | Rsm => Some Resampler | ADec _ => Some AudioDecoder | AEnc _ => Some AudioEncoder
  | VEnc _ => Some VideoEncoder | Dash d => Some (Dasher d) | Dmx _ _ => Some Demuxer | Tx _ => Some Transmitter | VDec _ _ _ | Shm _ _ _ => None
  end.
(** The order carried out, by the functions of the models of the filters (AudioMixer.cpp 294-390, VideoMixer.cpp 162-207,
    VideoSplitter.cpp 186-213, AudioDecoderLibav.cpp 146-185, AudioEncoderLibav.cpp 152-199, VideoEncoderX264or5.cpp 130-168 and 236-250,
    Dasher.cpp 53-85). The orders of the resampler, the demuxer and the transmitter are left out: their effects are in
    RsmModel, DmxModel and SinkModel. *)
Definition obey (v : env) (o : order) (st : state) : state :=
  match st, o with
  | AMix n m, ToMixer e => AMix n (snd (MixModel.step e m))
  | VMix m, ToVideoMixer e => VMix (VidModel.vmStep e m)
  | Split s, ToSplitter (Crop id w h x y d) => Split (setCrop (junk v) id w h x y d s)
  | Split s, ToSplitter (FrameTime t) => Split (mkSpl (setFrameTime t (ftime s)) (base s) (deg s))
  | ADec s, ToDecoder q => ADec (fst (AdcModel.configEvent (alloc v) (init v) s q))
  | AEnc s, ToAudioEncoder q => AEnc (fst (AenModel.configure s q (lib v)))
  | VEnc e, ToEncoder (EncModel.Configure r) => VEnc (fst (EncModel.configEvent r e))
  | VEnc e, ToEncoder (EncModel.SetRef t) => VEnc (EncModel.setRef t e)
  | VEnc e, ToEncoder EncModel.ForceIntra => VEnc (EncModel.setForce e)
  | Dash d, ToDasher (Setup f b du ms mb) => Dash (snd (MpdModel.configure f b du ms mb (writable v) d))
  | _, _ => st
  end.
(** BaseFilter::processEvent, src/Filter.cpp 422-446. None: the end of the program. *)
Definition send (v : env) (st : state) (action : string) (p : node) : option state :=
  match view st with
  | None => Some st
  | Some f => match event f (lit action) (Some p) with Ends => None | Refused => Some st | Orders o => Some (obey v o st) end
  end.
