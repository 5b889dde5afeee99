(** What the events of the filters ask for, from the names and values of their parameters. *)
From Coq Require Import Ascii String.
From Verif Require Import Base JsonModel NamesModel CtlSpec F32 FtxModel FtxSpec EvtModel.
From Verif Require MixModel VidModel RsmModel AdcModel AenModel EncModel MpdModel SdpModel SdpSpec.
Local Open Scope string_scope.
Local Open Scope list_scope.
Local Open Scope Z_scope.

(** The object has no member of that name. *)
Definition absent (c : fields) (k : string) : Prop := ~ In (lit k) (map fst c).
(** Values: an integer of 32 bits ([number], CtlSpec), one that is not negative, a decimal fraction within the range of
    floats ([ofDec n (-d)] is the float nearest to n / 10^d, C86_nearest), a text, true or false, a list of integers. *)
Definition natural (c : fields) (k : string) (z : Z) : Prop := number c k z /\ 0 <= z.
Definition isReal (s : str) (v : Z) : Prop :=
  exists n d, realIs s n d /\ Z.abs n * one <= (2 ^ 24 - 1) * 2 ^ 253 * 10 ^ Z.of_nat d /\ v = ofDec n (- Z.of_nat d).
Definition real (c : fields) (k : string) (v : Z) : Prop := exists s, member c k (Val VT_NUMBER s) /\ isReal s v.
Definition text (c : fields) (k : string) (s : str) : Prop := member c k (Val VT_STRING s).
Definition flag (c : fields) (k : string) (b : bool) : Prop := member c k (Val VT_BOOL (if b then lit "true" else lit "false")).
Definition isInts (l : list node) (zs : list Z) : Prop := Forall2 (fun n z => exists s, n = Val VT_NUMBER s /\ intIs s z) l zs.
Definition numbers (c : fields) (k : string) (zs : list Z) : Prop := exists l, member c k (Arr l) /\ isInts l zs.
(** A time in microseconds, written as a text of digits; blanks may come before it. *)
Definition blankChar (c : ascii) : Prop := In c ["009"%char; "010"%char; "011"%char; "012"%char; "013"%char; " "%char].
Definition time (c : fields) (k : string) (t : Z) : Prop := exists w s, text c k (w ++ s) /\ Forall blankChar w /\ s <> [] /\ digits s t /\ t < 2 ^ 63.
(** A text that names one of the values of an enumeration ([none]: the text names none of them). *)
Definition names {E} (show : E -> string) (none : E) (s : str) (v : E) : Prop :=
  (v <> none /\ s = lit (show v)) \/ (v = none /\ forall w, w <> none -> s <> lit (show w)).
Definition named {E} (show : E -> string) (none : E) (c : fields) (k : string) (v : E) : Prop := exists s, text c k s /\ names show none s v.
(** A value that may be left out. *)
Definition maybe {A} (P : fields -> string -> A -> Prop) (c : fields) (k : string) (o : option A) : Prop :=
  match o with Some a => P c k a | None => absent c k end.
Definition given {A} (o : option A) (d : A) : A := match o with Some a => a | None => d end.

(** A stream of a session, and the codecs there are. *)
Definition stream (n : node) (s : SdpModel.sub) : Prop :=
  exists c, n = Obj c /\ text c "medium" (SdpModel.sMedium s) /\ text c "codec" (SdpModel.sCodec s) /\ number c "bandwidth" (SdpModel.sBandwidth s) /\
    number c "timeStampFrequency" (SdpModel.sFreq s) /\ number c "port" (SdpModel.sPort s) /\ number c "channels" (SdpModel.sChannels s).
Definition knownCodec (s : str) : Prop := In s (map fst SdpSpec.codecs).

(** [asks f a c o]: for the filter [f], the action [a] with parameters [c] asks for [o]. *)
Inductive asks : filter -> string -> fields -> order -> Prop :=
| as_gain c id v : number c "id" id -> real c "gain" v -> asks AudioMixer "changeChannelGain" c (ToMixer (MixModel.EGain id v))
| as_mute c id : number c "id" id -> asks AudioMixer "muteChannel" c (ToMixer (MixModel.EGain id 0))
| as_solo c id : number c "id" id -> asks AudioMixer "soloChannel" c (ToMixer (MixModel.ESolo id))
| as_master c v : real c "gain" v -> asks AudioMixer "changeMasterGain" c (ToMixer (MixModel.EMaster v))
| as_mutemaster c : asks AudioMixer "muteMaster" c (ToMixer (MixModel.EMaster 0))
| as_channel m c id w h x y l e o : number c "id" id -> real c "width" w -> real c "height" h -> real c "x" x -> real c "y" y ->
    number c "layer" l -> flag c "enabled" e -> real c "opacity" o ->
    asks (VideoMixer m) "configChannel" c (ToVideoMixer (VidModel.VConf id (VidModel.mkCh w h x y l e o)))
| as_size m c w h f : number c "width" w -> number c "height" h -> maybe number c "fps" f ->
    asks (VideoMixer m) "configure" c (ToVideoMixer (VidModel.VSize w h (given f 0)))
| as_rate m c f : absent c "width" \/ absent c "height" -> maybe number c "fps" f ->
    asks (VideoMixer m) "configure" c (ToVideoMixer (VidModel.VSize (VidModel.ow m) (VidModel.oh m) (given f 0)))
| as_crop c id w h x y d : number c "id" id -> number c "width" w -> number c "height" h -> number c "x" x -> number c "y" y -> maybe number c "degree" d ->
    asks Splitter "configCrop" c (ToSplitter (Crop id w h x y (given d 0)))
| as_ftime c t : maybe number c "fTime" t -> asks Splitter "configure" c (ToSplitter (FrameTime (given t 0)))
| as_resample c w h f x : maybe number c "width" w -> maybe number c "height" h -> maybe number c "fps" f -> maybe number c "pixelFormat" x ->
    asks Resampler "configure" c (ToResampler (RsmModel.mkReq w h f x))
| as_decode c f ch r : maybe (named getSampleFormatAsString S_NONE) c "sampleFormat" f -> maybe number c "channels" ch -> maybe number c "sampleRate" r ->
    asks AudioDecoder "configure" c (ToDecoder (AdcModel.mkReq f ch r))
| as_aencode c k ch r b : maybe (named getAudioCodecAsString AC_NONE) c "codec" k -> maybe number c "channels" ch -> maybe number c "sampleRate" r ->
    maybe number c "bitrate" b -> asks AudioEncoder "configure" c (ToAudioEncoder (AenModel.mkEReq k ch r b))
| as_encode c br fps gop la bf th an pr gt : maybe number c "bitrate" br -> maybe number c "fps" fps -> maybe number c "gop" gop ->
    maybe number c "lookahead" la -> maybe number c "bframes" bf -> maybe number c "threads" th -> maybe flag c "annexb" an -> maybe text c "preset" pr -> maybe number c "gopTime" gt ->
    asks VideoEncoder "configure" c (ToEncoder (EncModel.Configure (EncModel.mkRq br fps gop la bf th an (option_map string_of_list_ascii pr) gt)))
| as_intra c : asks VideoEncoder "forceIntra" c (ToEncoder EncModel.ForceIntra)
| as_reference c t : time c "referenceTime" t -> asks VideoEncoder "gopReferenceTime" c (ToEncoder (EncModel.SetRef t))
| as_dash d c fo ba du ms mb : maybe text c "folder" fo -> maybe text c "baseName" ba -> maybe natural c "segDurInSec" du -> maybe natural c "maxSeg" ms -> maybe natural c "minBuffTime" mb ->
    asks (Dasher d) "configure" c (ToDasher (Setup (given fo (MpdModel.basePath d)) (given ba (MpdModel.baseName d)) (given du (MpdModel.segDur d mod 2 ^ 32))
      (given ms (match MpdModel.mgr d with Some m => MpdModel.maxSeg m | None => 0 end)) (given mb (match MpdModel.mgr d with Some m => MpdModel.minBufferTime m | None => 0 end))))
| as_bitrate d c id b : number c "id" id -> natural c "bitrate" b -> asks (Dasher d) "setBitrate" c (ToDasher (Bitrate id b))
| as_open c u : text c "uri" u -> asks Demuxer "configure" c (Open u)
| as_rtsp c rs id f n i d : numbers c "readers" rs -> rs <> [] -> number c "id" id -> named getTxFormatAsString TX_NONE c "txFormat" f -> text c "name" n ->
    maybe text c "info" i -> maybe text c "desc" d -> asks Transmitter "addRTSPConnection" c (ToTransmitter (AddRtsp rs id f n (given i []) (given d [])))
| as_rtp c rs id ip p f : numbers c "readers" rs -> rs <> [] -> number c "id" id -> text c "ip" ip -> number c "port" p -> named getTxFormatAsString TX_NONE c "txFormat" f ->
    asks Transmitter "addRTPConnection" c (ToTransmitter (AddRtp rs id ip p f))
| as_drop c id : number c "id" id -> asks Transmitter "removeConnection" c (ToTransmitter (RemoveConnection id))
| as_url known fresh c id pn u k : maybe text c "id" id -> (forall i, id = Some i -> known i = false) -> text c "progName" pn -> text c "uri" u -> maybe flag c "keepAlive" k ->
    asks (Receiver known fresh) "addSession" c (ToReceiver (ByUrl (given id fresh) pn u (given k true)))
| as_streams known fresh c id l subs k : maybe text c "id" id -> (forall i, id = Some i -> known i = false) -> absent c "uri" \/ absent c "progName" ->
    member c "subsessions" (Arr l) -> Forall2 stream l subs -> Forall (fun s => knownCodec (SdpModel.sCodec s)) subs -> maybe flag c "keepAlive" k ->
    asks (Receiver known fresh) "addSession" c (ToReceiver (ByStreams (given id fresh) subs (given k true)))
| as_close known fresh c id : text c "id" id -> asks (Receiver known fresh) "removeSession" c (ToReceiver (RemoveSession id)).

(** The parameters an action has, and of what kind they are. *)
Inductive kind := KInt | KNat | KReal | KText | KBool | KInts | KTime | KStreams.
Definition ofKind (k : kind) (n : node) : Prop :=
  match k with
  | KInt => exists s z, n = Val VT_NUMBER s /\ intIs s z
  | KNat => exists s z, n = Val VT_NUMBER s /\ intIs s z /\ 0 <= z
  | KReal => exists s v, n = Val VT_NUMBER s /\ isReal s v
  | KText => exists s, n = Val VT_STRING s
  | KBool => exists b : bool, n = Val VT_BOOL (if b then lit "true" else lit "false")
  | KInts => exists l zs, n = Arr l /\ isInts l zs
  | KTime => exists w s t, n = Val VT_STRING (w ++ s) /\ Forall blankChar w /\ s <> [] /\ digits s t /\ t < 2 ^ 63
  | KStreams => exists l subs, n = Arr l /\ Forall2 stream l subs
  end.
Definition table (f : filter) : list (string * list (string * kind)) :=
  match f with
  | AudioMixer => [("changeChannelGain", [("id", KInt); ("gain", KReal)]); ("muteChannel", [("id", KInt)]); ("soloChannel", [("id", KInt)]);
                   ("changeMasterGain", [("gain", KReal)]); ("muteMaster", [])]
  | VideoMixer _ => [("configChannel", [("id", KInt); ("width", KReal); ("height", KReal); ("x", KReal); ("y", KReal); ("layer", KInt); ("enabled", KBool); ("opacity", KReal)]);
                     ("configure", [("width", KInt); ("height", KInt); ("fps", KInt)])]
  | Splitter => [("configCrop", [("id", KInt); ("width", KInt); ("height", KInt); ("x", KInt); ("y", KInt); ("degree", KInt)]); ("configure", [("fTime", KInt)])]
  | Resampler => [("configure", [("width", KInt); ("height", KInt); ("fps", KInt); ("pixelFormat", KInt)])]
  | AudioDecoder => [("configure", [("sampleFormat", KText); ("channels", KInt); ("sampleRate", KInt)])]
  | AudioEncoder => [("configure", [("codec", KText); ("channels", KInt); ("sampleRate", KInt); ("bitrate", KInt)])]
  | VideoEncoder => [("configure", [("bitrate", KInt); ("fps", KInt); ("gop", KInt); ("lookahead", KInt); ("bframes", KInt); ("threads", KInt); ("annexb", KBool); ("preset", KText); ("gopTime", KInt)]);
                     ("forceIntra", []); ("gopReferenceTime", [("referenceTime", KTime)])]
  | Dasher _ => [("configure", [("folder", KText); ("baseName", KText); ("segDurInSec", KNat); ("maxSeg", KNat); ("minBuffTime", KNat)]); ("setBitrate", [("id", KInt); ("bitrate", KNat)])]
  | Demuxer => [("configure", [("uri", KText)])]
  | Transmitter => [("addRTSPConnection", [("readers", KInts); ("id", KInt); ("txFormat", KText); ("name", KText); ("info", KText); ("desc", KText)]);
                    ("addRTPConnection", [("readers", KInts); ("id", KInt); ("ip", KText); ("port", KInt); ("txFormat", KText)]); ("removeConnection", [("id", KInt)])]
  | Receiver _ _ => [("addSession", [("id", KText); ("keepAlive", KBool); ("uri", KText); ("progName", KText); ("subsessions", KStreams)]); ("removeSession", [("id", KText)])]
  end.
Definition known (f : filter) (a : str) : Prop := exists b l, In (b, l) (table f) /\ a = lit b.
(** Every parameter of the action that is given is of the kind it should be, and no name is given twice. *)
Definition fits (f : filter) (a : string) (c : fields) : Prop :=
  NoDup (map fst c) /\ forall l, In (a, l) (table f) -> forall k d n, In (k, d) l -> In (lit k, n) c -> ofKind d n.
(** Parameters that may not be left out. *)
Definition required (f : filter) : list (string * list string) :=
  match f with
  | AudioMixer => [("changeChannelGain", ["id"; "gain"]); ("muteChannel", ["id"]); ("soloChannel", ["id"]); ("changeMasterGain", ["gain"])]
  | VideoMixer _ => [("configChannel", ["id"; "width"; "height"; "x"; "y"; "layer"; "enabled"; "opacity"])]
  | Splitter => [("configCrop", ["id"; "width"; "height"; "x"; "y"])]
  | Resampler | AudioDecoder | AudioEncoder => []
  | VideoEncoder => [("gopReferenceTime", ["referenceTime"])]
  | Dasher _ => [("setBitrate", ["id"; "bitrate"])]
  | Demuxer => [("configure", ["uri"])]
  | Transmitter => [("addRTSPConnection", ["readers"; "id"; "txFormat"; "name"]); ("addRTPConnection", ["readers"; "id"; "ip"; "port"; "txFormat"]); ("removeConnection", ["id"])]
  | Receiver _ _ => [("removeSession", ["id"])]
  end.
Definition needed (f : filter) (a : string) (k : string) : Prop := exists l, In (a, l) (required f) /\ In k l.

(** Calls of the programming interface, and the orders they stand for. A gain or fraction is 0 or one that can be
    written with six digits (C86). *)
Definition plain (v : Z) : Prop := v = 0 \/ (shortDecimal v /\ ordinary v).
Inductive meant : filter -> str * option node -> order -> Prop :=
| me_gain id v : int32 id -> plain v -> meant AudioMixer (apiChangeChannelGain id v) (ToMixer (MixModel.EGain id v))
| me_mute id : int32 id -> meant AudioMixer (apiMuteChannel id) (ToMixer (MixModel.EGain id 0))
| me_solo id : int32 id -> meant AudioMixer (apiSoloChannel id) (ToMixer (MixModel.ESolo id))
| me_master v : plain v -> meant AudioMixer (apiChangeMasterGain v) (ToMixer (MixModel.EMaster v))
| me_mutemaster : meant AudioMixer apiMuteMaster (ToMixer (MixModel.EMaster 0))
| me_channel m id k : int32 id -> int32 (VidModel.clayer k) -> Forall plain [VidModel.cw k; VidModel.ch k; VidModel.cx k; VidModel.cy k; VidModel.cop k] ->
    meant (VideoMixer m) (apiConfigChannel id k) (ToVideoMixer (VidModel.VConf id k))
| me_size m w h f : Forall int32 [w; h; f] -> meant (VideoMixer m) (apiConfigureMixer w h f) (ToVideoMixer (VidModel.VSize w h f))
| me_crop id w h x y d : Forall int32 [id; w; h; x; y; d] -> meant Splitter (apiConfigCrop id w h x y d) (ToSplitter (Crop id w h x y d))
| me_ftime t : int32 t -> meant Splitter (apiConfigureSplitter t) (ToSplitter (FrameTime t))
| me_resample w h f x : Forall int32 [w; h; f; x] -> meant Resampler (apiConfigureResampler w h f x) (ToResampler (RsmModel.mkReq (Some w) (Some h) (Some f) (Some x)))
| me_decode f ch r : Forall int32 [ch; r] -> meant AudioDecoder (apiConfigureDecoder f ch r) (ToDecoder (AdcModel.mkReq (Some f) (Some ch) (Some r)))
| me_aencode k ch r b : Forall int32 [ch; r; b] -> meant AudioEncoder (apiConfigureAudioEncoder k ch r b) (ToAudioEncoder (AenModel.mkEReq (Some k) (Some ch) (Some r) (Some b)))
| me_encode br fps gop la bf th an pr gt : Forall int32 [br; fps; gop; la; bf; th; gt] -> ~ In "\"%char pr ->
    meant VideoEncoder (apiConfigureEncoder br fps gop la bf th an pr gt)
      (ToEncoder (EncModel.Configure (EncModel.mkRq (Some br) (Some fps) (Some gop) (Some la) (Some bf) (Some th) (Some an) (Some (string_of_list_ascii pr)) (Some gt))))
| me_reference t : 0 <= t < 2 ^ 63 -> meant VideoEncoder (apiSetReference t) (ToEncoder (EncModel.SetRef t)).
