(** Model of the events of filters: how the parameters of an event, a JSON value, become an order for the filter.

    Events are carried out by BaseFilter::processEvent, src/Filter.cpp 422-446: an action the filter does not know is
    passed over with a message, and so is one whose handler returns false. No function of src catches an exception, so
    one thrown by a handler ends the program. The orders are those of the models of the filters (MixModel, VidModel,
    RsmModel, AdcModel, AenModel, EncModel, MpdModel); what the filter does with them is modelled there.

    Simplifications: an order given to one of the functions of the filter counts as given even if that function refuses
    it for its values; the random name of a session without "id" is a parameter. *)
From Coq Require Import Ascii String.
From Verif Require Import Base ZMap F32 JsonModel NamesModel CtlModel FtxModel.
From Verif Require MixModel VidModel RsmModel AdcModel AenModel EncModel MpdModel SdpModel.
Local Open Scope string_scope.
Local Open Scope list_scope.
Local Open Scope Z_scope.

(** What comes of an event: the end of the program, nothing, or an order. *)
Inductive got (A : Type) := Ends | Refused | Orders (a : A).
Arguments Ends {A}. Arguments Refused {A}. Arguments Orders {A} a.

(** The members of an object. *)
Definition fields := list (str * node).

(** *** Access to parameters, src/Jzon.h 69-118 and src/Jzon.cpp 269-336. [None]: an exception. *)
(** A handler that starts with "if (!params) return false" and then asks Has, which throws unless the node is an object. *)
Definition onObject {A} (p : option node) (h : fields -> got A) : got A :=
  match p with None => Refused | Some (Obj c) => h c | Some _ => Ends end.
(** Has, Jzon.cpp 632-642, of every name in turn. *)
Definition has (ks : list string) (c : fields) : bool := forallb (fun k => match get k c with Some _ => true | None => false end) ks.
(** ToBool, Jzon.cpp 327-336. *)
Definition toBool (n : node) : option bool :=
  match n with Val VT_NULL _ => Some false | Val VT_BOOL s => Some (streq s (lit "true")) | _ => None end.
(** Jzon.h 149. *)
Definition isBool (n : node) : bool := match n with Val VT_BOOL _ => true | _ => false end.
(** Jzon.h 147. *)
Definition isText (n : node) : bool := match n with Val VT_STRING _ => true | _ => false end.
(** Get(k).ToX(), for a name that is there. *)
Definition take {A} (f : node -> option A) (k : string) (c : fields) : option A := match get k c with Some n => f n | None => None end.
(** if (Has(k)) x = Get(k).ToX(). *)
Definition opt {A} (f : node -> option A) (k : string) (c : fields) : option (option A) :=
  match get k c with Some n => option_map Some (f n) | None => Some None end.
(** if (Has(k) && Get(k).IsX()) x = Get(k).ToX(). *)
Definition guarded {A} (ok : node -> bool) (f : node -> option A) (k : string) (c : fields) : option A :=
  match get k c with Some n => if ok n then f n else None | None => None end.
(** The value is needed: an exception ends the program. *)
Definition need {A B} (x : option A) (k : A -> got B) : got B := match x with Some a => k a | None => Ends end.
(** A value or, if it was not given, the old one. *)
Definition dflt {A} (o : option A) (d : A) : A := match o with Some a => a | None => d end.
(** std::string of characters. *)
Definition chars (s : str) : string := string_of_list_ascii s.
(** int to unsigned. *)
Definition unsigned (z : Z) : Z := z mod 2 ^ 32.

(** *** The audio mixer, src/modules/audioMixer/AudioMixer.cpp. *)
(** changeChannelVolumeEvent 311-328. *)
Definition changeChannelVolume (p : option node) : got MixModel.event :=
  onObject p (fun c => if has ["id"; "gain"] c
    then need (take toInt "id" c) (fun id => need (take toFloat "gain" c) (fun g => Orders (MixModel.EGain id g)))
    else Refused).
(** muteChannelEvent 330-345. *)
Definition muteChannel (p : option node) : got MixModel.event :=
  onObject p (fun c => if has ["id"] c then need (take toInt "id" c) (fun id => Orders (MixModel.EGain id 0)) else Refused).
(** soloChannelEvent 347-372. *)
Definition soloChannel (p : option node) : got MixModel.event :=
  onObject p (fun c => if has ["id"] c then need (take toInt "id" c) (fun id => Orders (MixModel.ESolo id)) else Refused).
(** changeMasterVolumeEvent 374-390. *)
Definition changeMasterVolume (p : option node) : got MixModel.event :=
  onObject p (fun c => if has ["gain"] c then need (take toFloat "gain" c) (fun g => Orders (MixModel.EMaster g)) else Refused).
(** muteMasterEvent 392-396. *)
Definition muteMaster (p : option node) : got MixModel.event := Orders (MixModel.EMaster 0).
(** AudioMixer::initializeEventMap 457-473 with BaseFilter::processEvent, Filter.cpp 435-443. *)
Definition mixerEvent (action : str) (p : option node) : got MixModel.event :=
  if streq action (lit "changeChannelGain") then changeChannelVolume p
  else if streq action (lit "muteChannel") then muteChannel p
  else if streq action (lit "soloChannel") then soloChannel p
  else if streq action (lit "changeMasterGain") then changeMasterVolume p
  else if streq action (lit "muteMaster") then muteMaster p
  else Refused.

(** *** The video mixer, src/modules/videoMixer/VideoMixer.cpp. *)
(** configChannelEvent 278-303. *)
Definition configChannel (p : option node) : got VidModel.vmEvent :=
  onObject p (fun c => if has ["id"; "width"; "height"; "x"; "y"; "layer"; "enabled"; "opacity"] c
    then need (take toInt "id" c) (fun id => need (take toFloat "width" c) (fun w => need (take toFloat "height" c) (fun h =>
         need (take toFloat "x" c) (fun x => need (take toFloat "y" c) (fun y => need (take toInt "layer" c) (fun l =>
         need (take toBool "enabled" c) (fun e => need (take toFloat "opacity" c) (fun o =>
         Orders (VidModel.VConf id (VidModel.mkCh w h x y l e o))))))))))
    else Refused).
(** configureEvent 305-327. *)
Definition configureMixer (m : VidModel.vmixer) (p : option node) : got VidModel.vmEvent :=
  onObject p (fun c =>
    let '(w, h) := match guarded isNum toInt "width" c, guarded isNum toInt "height" c with
                   | Some w, Some h => (w, h) | _, _ => (VidModel.ow m, VidModel.oh m) end in
    Orders (VidModel.VSize w h (dflt (guarded isNum toInt "fps" c) 0))).
(** VideoMixer::initializeEventMap 272-276. *)
Definition vmixerEvent (m : VidModel.vmixer) (action : str) (p : option node) : got VidModel.vmEvent :=
  if streq action (lit "configChannel") then configChannel p
  else if streq action (lit "configure") then configureMixer m p
  else Refused.

(** *** The splitter, src/modules/videoSplitter/VideoSplitter.cpp: a crop, or the time between frames. *)
Inductive spOrder := Crop (id w h x y degree : Z) | FrameTime (t : Z).
(** configCropEvent 221-249. *)
Definition configCrop (p : option node) : got spOrder :=
  onObject p (fun c => if has ["id"; "width"; "height"; "x"; "y"] c then
    match guarded isNum toInt "id" c, guarded isNum toInt "width" c, guarded isNum toInt "height" c, guarded isNum toInt "x" c, guarded isNum toInt "y" c with
    | Some id, Some w, Some h, Some x, Some y => need (opt toInt "degree" c) (fun d => Orders (Crop id w h x y (dflt d 0)))
    | _, _, _, _, _ => Refused
    end else Refused).
(** configureEvent 251-265. *)
Definition configureSplitter (p : option node) : got spOrder :=
  onObject p (fun c => Orders (FrameTime (dflt (guarded isNum toInt "fTime" c) 0))).
(** configure0 203-213, of the time between frames. *)
Definition setFrameTime (t old : Z) : Z := if t <? 0 then old else t.
(** VideoSplitter::initializeEventMap 215-219. *)
Definition splitterEvent (action : str) (p : option node) : got spOrder :=
  if streq action (lit "configCrop") then configCrop p else if streq action (lit "configure") then configureSplitter p else Refused.

(** *** The resampler, src/modules/videoResampler/VideoResampler.cpp: configEvent 183-222, initializeEventMap 224-227. *)
Definition resamplerEvent (action : str) (p : option node) : got RsmModel.request :=
  if streq action (lit "configure") then
    onObject p (fun c => need (opt toInt "width" c) (fun w => need (opt toInt "height" c) (fun h => need (opt toInt "fps" c) (fun f =>
                         need (opt toInt "pixelFormat" c) (fun x => Orders (RsmModel.mkReq w h f x))))))
  else Refused.

(** *** The audio decoder, src/modules/audioDecoder/AudioDecoderLibav.cpp: configEvent 331-354, initializeEventMap 370-373. *)
Definition audioDecoderEvent (action : str) (p : option node) : got AdcModel.request :=
  if streq action (lit "configure") then
    onObject p (fun c => need (opt toInt "sampleRate" c) (fun r => need (opt toInt "channels" c) (fun ch => need (opt nodeText "sampleFormat" c) (fun f =>
                         Orders (AdcModel.mkReq (option_map (fun s => getSampleFormatFromString (chars s)) f) ch r)))))
  else Refused.

(** *** The audio encoder, src/modules/audioEncoder/AudioEncoderLibav.cpp: configEvent 421-454, initializeEventMap 456-459. *)
Definition audioEncoderEvent (action : str) (p : option node) : got AenModel.erequest :=
  if streq action (lit "configure") then
    onObject p (fun c => need (opt nodeText "codec" c) (fun k => need (opt toInt "sampleRate" c) (fun r => need (opt toInt "channels" c) (fun ch =>
                         need (opt toInt "bitrate" c) (fun b =>
                         Orders (AenModel.mkEReq (option_map (fun s => getAudioCodecFromString (chars s)) k) ch r b))))))
  else Refused.

(** *** The video encoders, src/modules/videoEncoder/VideoEncoderX264or5.cpp. *)
(** configEvent 170-234. *)
Definition configEncoder (p : option node) : got EncModel.op :=
  onObject p (fun c => need (opt nodeText "preset" c) (fun pr =>
    Orders (EncModel.Configure (EncModel.mkRq (guarded isNum toInt "bitrate" c) (guarded isNum toInt "fps" c) (guarded isNum toInt "gop" c)
      (guarded isNum toInt "lookahead" c) (guarded isNum toInt "bframes" c) (guarded isNum toInt "threads" c)
      (guarded isBool toBool "annexb" c) (option_map chars pr) (guarded isNum toInt "gopTime" c))))).
(** std::stoull, of 246: blanks, an optional sign, digits; None: an exception, for no digit or a value beyond 64 bits.
    A negative value is taken modulo 2^64. *)
Definition isSpace (c : ascii) : bool := let n := N_of_ascii c in ((n =? 32) || ((9 <=? n) && (n <=? 13)))%N.
(** The blanks std::stoull skips (library). *)
Fixpoint blanks (s : str) : str := match s with c :: t => if isSpace c then blanks t else s | [] => [] end.
(** std::stoull (library); None is an exception. *)
Definition stoull (s : str) : option Z :=
  let digs (t : str) := let '(v, n, _) := span 0 0 t in if (n =? 0) || (2 ^ 64 <=? v) then None else Some v in
  match blanks s with
  | c :: t => if is c "-" then option_map (fun v => (- v) mod 2 ^ 64) (digs t) else if is c "+" then digs t else digs (c :: t)
  | [] => None
  end.
(** std::chrono::microseconds holds a signed 64 bit number. *)
Definition signed64 (v : Z) : Z := if v <? 2 ^ 63 then v else v - 2 ^ 64.
(** setGopReferenceTimeEvent 242-250: a NULL pointer is followed. *)
Definition setGopReferenceTime (p : option node) : got EncModel.op :=
  match p with
  | Some (Obj c) => match guarded isText nodeText "referenceTime" c with
                    | Some s => need (stoull s) (fun v => Orders (EncModel.SetRef (signed64 v)))
                    | None => Refused
                    end
  | _ => Ends
  end.
(** initializeEventMap 252-257, with forceIntraEvent 236-240. *)
Definition encoderEvent (action : str) (p : option node) : got EncModel.op :=
  if streq action (lit "forceIntra") then Orders EncModel.ForceIntra
  else if streq action (lit "gopReferenceTime") then setGopReferenceTime p
  else if streq action (lit "configure") then configEncoder p
  else Refused.

(** *** The dasher, src/modules/dasher/Dasher.cpp: configuration, or the bitrate of an input. *)
Inductive dashOrder := Setup (folder base : str) (dur maxSeg minBuff : Z) | Bitrate (id bps : Z).
(** configureEvent 442-479. *)
Definition configureDasher (d : MpdModel.dasher) (p : option node) : got dashOrder :=
  onObject p (fun c => Orders (Setup (dflt (guarded isText nodeText "folder" c) (MpdModel.basePath d)) (dflt (guarded isText nodeText "baseName" c) (MpdModel.baseName d))
    (unsigned (dflt (guarded isNum toInt "segDurInSec" c) (MpdModel.segDur d)))
    (dflt (option_map unsigned (guarded isNum toInt "maxSeg" c)) (match MpdModel.mgr d with Some m => MpdModel.maxSeg m | None => 0 end))
    (dflt (option_map unsigned (guarded isNum toInt "minBuffTime" c)) (match MpdModel.mgr d with Some m => MpdModel.minBufferTime m | None => 0 end)))).
(** setBitrateEvent 481-497. *)
Definition setBitrate (p : option node) : got dashOrder :=
  onObject p (fun c => if has ["id"; "bitrate"] c
    then need (take toInt "id" c) (fun id => need (take toInt "bitrate" c) (fun b => Orders (Bitrate id (unsigned b)))) else Refused).
(** Dasher::initializeEventMap 416-420. *)
Definition dasherEvent (d : MpdModel.dasher) (action : str) (p : option node) : got dashOrder :=
  if streq action (lit "configure") then configureDasher d p else if streq action (lit "setBitrate") then setBitrate p else Refused.

(** *** The demuxer, src/modules/headDemuxer/HeadDemuxerLibav.cpp: configureEvent 387-402, initializeEventMap 382-385. *)
Definition demuxerEvent (action : str) (p : option node) : got str :=
  if streq action (lit "configure") then
    onObject p (fun c => if has ["uri"] c then need (take nodeText "uri" c) (fun u => Orders u) else Refused)
  else Refused.

(** *** The transmitter, src/modules/transmitter/SinkManager.cpp. *)
Inductive txOrder :=
| AddRtsp (readers : list Z) (id : Z) (f : TxFormat) (name info desc : str)
| AddRtp (readers : list Z) (id : Z) (ip : str) (port : Z) (f : TxFormat)
| RemoveConnection (id : Z).
(** Model's own: the children of a Jzon array. *)
Definition elements (n : node) : option (list node) := match n with Arr l => Some l | _ => None end.
(** removeConnectionEvent 528-546. *)
Definition removeConnection (p : option node) : got txOrder :=
  onObject p (fun c => match guarded isNum toInt "id" c with Some id => Orders (RemoveConnection id) | None => Refused end).
(** addRTSPConnectionEvent 548-597. *)
Definition addRtsp (p : option node) : got txOrder :=
  onObject p (fun c => if has ["id"; "txFormat"; "name"; "readers"] c then
    match take elements "readers" c, guarded isNum toInt "id" c with
    | Some rs, Some id =>
        need (take nodeText "name" c) (fun name => need (take nodeText "txFormat" c) (fun f => need (opt nodeText "info" c) (fun i => need (opt nodeText "desc" c) (fun d =>
        need (toInts rs) (fun rs => match rs with [] => Refused | _ => Orders (AddRtsp rs id (getTxFormatFromString (chars f)) name (dflt i []) (dflt d [])) end)))))
    | _, _ => Refused
    end else Refused).
(** addRTPConnectionEvent 599-641. *)
Definition addRtp (p : option node) : got txOrder :=
  onObject p (fun c => if has ["id"; "port"; "ip"; "txFormat"; "readers"] c then
    match take elements "readers" c with
    | Some rs =>
        need (take toInt "id" c) (fun id => need (take toInt "port" c) (fun port => need (take nodeText "ip" c) (fun ip => need (take nodeText "txFormat" c) (fun f =>
        need (toInts rs) (fun rs => match rs with [] => Refused | _ => Orders (AddRtp rs id ip port (getTxFormatFromString (chars f))) end)))))
    | None => Refused
    end else Refused).
(** SinkManager::initializeEventMap 521-526. *)
Definition transmitterEvent (action : str) (p : option node) : got txOrder :=
  if streq action (lit "addRTSPConnection") then addRtsp p
  else if streq action (lit "addRTPConnection") then addRtp p
  else if streq action (lit "removeConnection") then removeConnection p
  else Refused.

(** *** The receiver, src/modules/receiver/SourceManager.cpp. *)
Inductive rxOrder :=
| ByUrl (id prog url : str) (keep : bool)
| ByStreams (id : str) (subs : list SdpModel.sub) (keep : bool)
| RemoveSession (id : str).
(** removeSessionEvent 280-290: a NULL pointer is followed. *)
Definition removeSession (p : option node) : got rxOrder :=
  match p with
  | Some (Obj c) => match get "id" c with Some n => need (nodeText n) (fun s => Orders (RemoveSession s)) | None => Refused end
  | _ => Ends
  end.
(** One element of "subsessions", 331-336: Get throws if the name is not there, or the element is no object. *)
Definition subOf (n : node) : option SdpModel.sub :=
  match n with
  | Obj c => match take nodeText "medium" c, take nodeText "codec" c, take toInt "bandwidth" c, take toInt "timeStampFrequency" c, take toInt "port" c, take toInt "channels" c with
             | Some m, Some k, Some b, Some f, Some p, Some ch => Some (SdpModel.mkSub m k b f p ch)
             | _, _, _, _, _, _ => None
             end
  | _ => None
  end.
(** The loop 330-346: a codec without payload type stops it. *)
Fixpoint subsOf (l : list node) : got (list SdpModel.sub) :=
  match l with
  | [] => Orders []
  | n :: t => need (subOf n) (fun s => if SdpModel.getPayloadFromCodec (SdpModel.sCodec s) <? 0 then Refused
                                       else match subsOf t with Orders r => Orders (s :: r) | Refused => Refused | Ends => Ends end)
  end.
(** addSessionEvent 292-352; [known]: there is a session of that name; [fresh]: the random name. *)
Definition addSession (known : str -> bool) (fresh : str) (p : option node) : got rxOrder :=
  onObject p (fun c =>
    let keep := dflt (guarded isBool toBool "keepAlive" c) true in
    let go (id : str) :=
      if has ["uri"; "progName"] c then need (take nodeText "progName" c) (fun pn => need (take nodeText "uri" c) (fun u => Orders (ByUrl id pn u keep)))
      else match take elements "subsessions" c with
           | Some l => match subsOf l with Orders r => Orders (ByStreams id r keep) | Refused => Refused | Ends => Ends end
           | None => Refused
           end in
    match guarded isText nodeText "id" c with
    | Some id => if known id then Refused else go id
    | None => go fresh
    end).
(** SourceManager::initializeEventMap 274-278. *)
Definition receiverEvent (known : str -> bool) (fresh : str) (action : str) (p : option node) : got rxOrder :=
  if streq action (lit "addSession") then addSession known fresh p
  else if streq action (lit "removeSession") then removeSession p
  else Refused.

(** *** Any of these filters, with the part of its state that an event refers to, and its orders. *)
Inductive filter :=
| AudioMixer | VideoMixer (m : VidModel.vmixer) | Splitter | Resampler | AudioDecoder | AudioEncoder | VideoEncoder
| Dasher (d : MpdModel.dasher) | Demuxer | Transmitter | Receiver (known : str -> bool) (fresh : str).
(** Model's own: an order of any of the filters above. *)
Inductive order :=
| ToMixer (e : MixModel.event) | ToVideoMixer (e : VidModel.vmEvent) | ToSplitter (o : spOrder) | ToResampler (q : RsmModel.request)
| ToDecoder (q : AdcModel.request) | ToAudioEncoder (q : AenModel.erequest) | ToEncoder (o : EncModel.op) | ToDasher (o : dashOrder)
| Open (uri : str) | ToTransmitter (o : txOrder) | ToReceiver (o : rxOrder).
(** Model's own. *)
Definition gmap {A B} (f : A -> B) (g : got A) : got B := match g with Orders a => Orders (f a) | Refused => Refused | Ends => Ends end.
(** BaseFilter::processEvent, Filter.cpp 435-443: the map of the filter's class. *)
Definition event (f : filter) (action : str) (p : option node) : got order :=
  match f with
  | AudioMixer => gmap ToMixer (mixerEvent action p)
  | VideoMixer m => gmap ToVideoMixer (vmixerEvent m action p)
  | Splitter => gmap ToSplitter (splitterEvent action p)
  | Resampler => gmap ToResampler (resamplerEvent action p)
  | AudioDecoder => gmap ToDecoder (audioDecoderEvent action p)
  | AudioEncoder => gmap ToAudioEncoder (audioEncoderEvent action p)
  | VideoEncoder => gmap ToEncoder (encoderEvent action p)
  | Dasher d => gmap ToDasher (dasherEvent d action p)
  | Demuxer => gmap Open (demuxerEvent action p)
  | Transmitter => gmap ToTransmitter (transmitterEvent action p)
  | Receiver k r => gmap ToReceiver (receiverEvent k r action p)
  end.

(** *** The calls of the API, which make an event of their arguments: action and parameters. *)
(** Value::Set of an int, a bool and a string, Jzon.cpp 366-372, 387-394, 356-360. *)
Definition ofInt (z : Z) : node := Val VT_NUMBER (intText z).
(** Jzon.cpp 387-394. *)
Definition ofBool (b : bool) : node := Val VT_BOOL (if b then lit "true" else lit "false").
(** Jzon.cpp 356-360. *)
Definition ofText (s : str) : node := Val VT_STRING (unescape s).
(** Model's own: the parameters the methods below add to an event, e.g. AudioMixer.cpp 414-418. *)
Definition params (l : list (string * node)) : option node := Some (Obj (map (fun '(k, n) => (lit k, n)) l)).
(** AudioMixer.cpp 398-455. *)
Definition apiChangeChannelGain (id v : Z) := (lit "changeChannelGain", params [("id", ofInt id); ("gain", floatNode v)]%string).
(** AudioMixer.cpp 411-421. *)
Definition apiMuteChannel (id : Z) := (lit "muteChannel", params [("id", ofInt id)]%string).
(** AudioMixer.cpp 423-433. *)
Definition apiSoloChannel (id : Z) := (lit "soloChannel", params [("id", ofInt id)]%string).
(** AudioMixer.cpp 435-445. *)
Definition apiChangeMasterGain (v : Z) := (lit "changeMasterGain", params [("gain", floatNode v)]%string).
(** AudioMixer.cpp 447-455. *)
Definition apiMuteMaster : str * option node := (lit "muteMaster", None).
(** VideoMixer.cpp 353-384. *)
Definition apiConfigChannel (id : Z) (ch : VidModel.chan) := (lit "configChannel", params [("id", ofInt id);
  ("width", floatNode (VidModel.cw ch)); ("height", floatNode (VidModel.ch ch)); ("x", floatNode (VidModel.cx ch)); ("y", floatNode (VidModel.cy ch));
  ("layer", ofInt (VidModel.clayer ch)); ("enabled", ofBool (VidModel.cen ch)); ("opacity", floatNode (VidModel.cop ch))]%string).
(** VideoMixer.cpp 372-384. *)
Definition apiConfigureMixer (w h fps : Z) := (lit "configure", params [("width", ofInt w); ("height", ofInt h); ("fps", ofInt fps)]%string).
(** VideoSplitter.cpp 73-99. *)
Definition apiConfigCrop (id w h x y d : Z) := (lit "configCrop", params [("id", ofInt id); ("width", ofInt w); ("height", ofInt h); ("x", ofInt x); ("y", ofInt y); ("degree", ofInt d)]%string).
(** VideoSplitter.cpp 90-99. *)
Definition apiConfigureSplitter (t : Z) := (lit "configure", params [("fTime", ofInt t)]%string).
(** VideoResampler.cpp 282-295; the pixel format is the number of its enumerator. *)
Definition apiConfigureResampler (w h fps pix : Z) := (lit "configure", params [("width", ofInt w); ("height", ofInt h); ("fps", ofInt fps); ("pixelFormat", ofInt pix)]%string).
(** AudioDecoderLibav.cpp 356-368. *)
Definition apiConfigureDecoder (f : SampleFmt) (ch rate : Z) :=
  (lit "configure", params [("sampleFormat", ofText (lit (getSampleFormatAsString f))); ("channels", ofInt ch); ("sampleRate", ofInt rate)]%string).
(** AudioEncoderLibav.cpp 461-474. *)
Definition apiConfigureAudioEncoder (k : ACodecType) (ch rate bit : Z) :=
  (lit "configure", params [("codec", ofText (lit (getAudioCodecAsString k))); ("channels", ofInt ch); ("sampleRate", ofInt rate); ("bitrate", ofInt bit)]%string).
(** VideoEncoderX264or5.cpp 274-294. *)
Definition apiConfigureEncoder (br fps gop la bf th : Z) (annexb : bool) (preset : str) (gopTime : Z) :=
  (lit "configure", params [("bitrate", ofInt br); ("fps", ofInt fps); ("gop", ofInt gop); ("gopTime", ofInt gopTime); ("lookahead", ofInt la); ("bframes", ofInt bf);
    ("threads", ofInt th); ("annexb", ofBool annexb); ("preset", ofText preset)]%string).
(** Dasher::sendSetReferenceEvent, Dasher.cpp 298-308, of a time of less than 20 digits. *)
Definition apiSetReference (t : Z) := (lit "gopReferenceTime", params [("referenceTime", ofText (decimal 20 t))]%string).
