(** What the report of a filter should tell. *)
From Coq Require Import Ascii String Sorting.Sorted.
From Verif Require Import Base ZMap F32 JsonModel NamesModel CtlModel CtlSpec FtxModel FtxSpec EvtModel EvtSpec RepModel.
From Verif Require PipeModel MixModel VidModel AdcModel AenModel EncModel MpdModel.
Local Open Scope string_scope.
Local Open Scope list_scope.
Local Open Scope Z_scope.

(** A number that reads as the float [v]; an array of objects, one for each of a list of things. *)
Definition shown (c : fields) (k : string) (v : Z) : Prop := exists n, member c k n /\ toFloat n = Some v.
Definition listing {A} (P : fields -> A -> Prop) (c : fields) (k : string) (l : list A) : Prop :=
  exists ns, member c k (Arr ns) /\ Forall2 (fun n x => exists o, n = Obj o /\ P o x) ns l.
Definition inside (c : fields) (k : string) (P : fields -> Prop) : Prop := exists o, member c k (Obj o) /\ P o.
(** The decimal digits of a number, as a text. *)
Definition digitsText (c : fields) (k : string) (z : Z) : Prop := exists s, text c k s /\ (s <> [] /\ digits s z \/ exists t, s = "-"%char :: t /\ t <> [] /\ digits t (- z)).

Definition tellsGain (o : fields) (x : Z * Z) : Prop := number o "id" (fst x) /\ shown o "gain" (snd x).
Definition tellsChannel (o : fields) (x : Z * VidModel.chan) : Prop :=
  let k := snd x in number o "id" (fst x) /\ shown o "width" (VidModel.cw k) /\ shown o "height" (VidModel.ch k) /\ shown o "x" (VidModel.cx k) /\ shown o "y" (VidModel.cy k) /\
  number o "layer" (VidModel.clayer k) /\ flag o "enabled" (VidModel.cen k) /\ shown o "opacity" (VidModel.cop k).
Definition tellsCrop (d : Z -> Z) (o : fields) (x : Z * VidModel.crop) : Prop :=
  let k := snd x in number o "id" (fst x) /\ number o "width" (VidModel.kw k) /\ number o "height" (VidModel.kh k) /\ number o "x" (VidModel.kx k) /\ number o "y" (VidModel.ky k) /\
  number o "degree" (d (fst x)).
(** A stream that is sent: rates in kilobits per second, loss, jitter and delay, each now (or on average), least, most. *)
Definition three (P : fields -> string -> Z -> Prop) (o : fields) (now least most : string) (v : Z * Z * Z) : Prop :=
  P o now (fst (fst v)) /\ P o least (snd (fst v)) /\ P o most (snd v).
Definition tellsStream (o : fields) (s : cstat) : Prop :=
  digitsText o "SSRC" (ssrc s) /\
  three (fun o k v => shown o k (v * one)) o "avgBitrateInKbps" "minBitrateInKbps" "maxBitrateInKbps" (rate s) /\
  three number o "packetLossRatio" "minPacketLossRatio" "maxPacketLossRatio" (loss s) /\
  three number o "jitterInMicroseconds" "minJitterInMicroseconds" "maxJitterInMicroseconds" (jitter s) /\
  three number o "roundTripDelayMilliseconds" "minRoundTripDelayMilliseconds" "maxRoundTripDelayMilliseconds" (delay s).
Definition tellsPeer (o : fields) (p : peer) : Prop :=
  match p with Rtsp n u => text o "name" n /\ text o "uri" u | Rtp ip port => text o "ip" ip /\ digitsText o "port" port end.
Definition tellsConn (o : fields) (c : conn) : Prop :=
  tellsPeer o (who c) /\ numbers o "readers" (readers c) /\ listing tellsStream o "subsessionsStats" (streams c).

(** [tells st c]: the object [c] tells the state. *)
Definition tells (st : state) (c : fields) : Prop :=
  match st with
  | AMix n m => number c "channels" (MixModel.chans m) /\ number c "sampleRate" (MixModel.rate m) /\ text c "sampleFormat" (lit "fltp") /\ number c "maxChannels" n /\
      shown c "masterGain" (MixModel.master m) /\ listing tellsGain c "gains" (MixModel.gains m)
  | VMix m => number c "width" (VidModel.ow m) /\ number c "height" (VidModel.oh m) /\ number c "maxChannels" (VidModel.maxCh m) /\ listing tellsChannel c "channels" (VidModel.cfg m)
  | Split s => number c "frameTime" (ftime s) /\ listing (tellsCrop (deg s)) c "crops" (VidModel.crops (base s))
  | Rsm => True
  | ADec s => named getAudioCodecAsString AC_NONE c "codec" (AdcModel.fCodec s) /\ number c "sampleRate" (AdcModel.prate (AdcModel.out s)) /\
      number c "channels" (AdcModel.pch (AdcModel.out s)) /\ named getSampleFormatAsString S_NONE c "sampleFormat" (AdcModel.pfmt (AdcModel.out s))
  | AEnc s => named getAudioCodecAsString AC_NONE c "codec" (AenModel.ecodec s) /\ number c "sampleRate" (AenModel.erate s) /\ number c "channels" (AenModel.ech s)
  | VEnc e => let s := EncModel.set e in number c "bitrate" (EncModel.bitrate s) /\ number c "fps" (EncModel.fps s) /\ number c "gop" (EncModel.gop s) /\ number c "gopTime" (EncModel.gopTime s) /\
      digitsText c "refTime" (EncModel.refTime e) /\ number c "lookahead" (EncModel.lookahead s) /\ number c "threads" (EncModel.threads s) /\ flag c "annexb" (EncModel.annexb s) /\
      number c "bframes" (EncModel.bFrames s) /\ text c "preset" (lit (EncModel.preset s))
  | VDec k w h => inside c "inputInfo" (fun o => named getVideoCodecAsString VC_NONE o "codec" k /\ number o "width" w /\ number o "height" h)
  | Dash d => text c "folder" (MpdModel.basePath d) /\ text c "baseName" (MpdModel.baseName d) /\ number c "segDurInSec" (MpdModel.segDur d) /\
      (forall m, MpdModel.mgr d = Some m -> text c "mpdURI" (MpdModel.basePath d ++ MpdModel.baseName d ++ lit ".mpd") /\ number c "maxSegments" (MpdModel.maxSeg m) /\ number c "minBufferTime" (MpdModel.minBufferTime m)) /\
      exists l, numbers c "readers" l /\ Sorted Z.lt l /\ forall i, In i l <-> mmem i (MpdModel.vslots d) = true \/ mmem i (MpdModel.aslots d) = true
  | Dmx u l => text c "uri" u /\ listing (fun o x => number o "wId" (fst x) /\ match snd x with
      | DAudio k r n f => number o "type" 0 /\ number o "codec" k /\ number o "sampleRate" r /\ number o "channels" n /\ number o "sampleFormat" f
      | DVideo k => number o "type" 1 /\ number o "codec" k end) c "streams" l
  | Shm k a i => named getVideoCodecAsString VC_NONE c "codec" k /\ number c "key" a /\ number c "memoryId" i
  | Tx l => listing (fun o x => tellsConn o (snd x)) c "sessions" l
  end.

(** The values are those an int, a float written with six digits, a text without backslashes hold. *)
Definition clean (s : str) : Prop := ~ In "\"%char s.
Definition three_ok (P : Z -> Prop) (v : Z * Z * Z) : Prop := P (fst (fst v)) /\ P (snd (fst v)) /\ P (snd v).
Definition plainStat (s : cstat) : Prop := 0 <= ssrc s < 2 ^ 32 /\ three_ok (fun v => 0 <= v < 1000000) (rate s) /\ three_ok int32 (loss s) /\ three_ok int32 (jitter s) /\ three_ok int32 (delay s).
Definition plainConn (c : conn) : Prop :=
  match who c with Rtsp n u => clean n /\ clean u | Rtp ip p => clean ip /\ 0 <= p < 2 ^ 32 end /\ Forall plainStat (streams c) /\ Forall int32 (readers c).
Definition plainState (st : state) : Prop :=
  match st with
  | AMix n m => Forall int32 [n; MixModel.chans m; MixModel.rate m] /\ plain (MixModel.master m) /\ Forall (fun x => int32 (fst x) /\ plain (snd x)) (MixModel.gains m)
  | VMix m => Forall int32 [VidModel.ow m; VidModel.oh m; VidModel.maxCh m] /\ Forall (fun x => int32 (fst x) /\ int32 (VidModel.clayer (snd x)) /\
      Forall plain [VidModel.cw (snd x); VidModel.ch (snd x); VidModel.cx (snd x); VidModel.cy (snd x); VidModel.cop (snd x)]) (VidModel.cfg m)
  | Split s => int32 (ftime s) /\ Forall (fun x => Forall int32 [fst x; VidModel.kw (snd x); VidModel.kh (snd x); VidModel.kx (snd x); VidModel.ky (snd x); deg s (fst x)]) (VidModel.crops (base s))
  | Rsm => True
  | ADec s => Forall int32 [AdcModel.prate (AdcModel.out s); AdcModel.pch (AdcModel.out s)]
  | AEnc s => Forall int32 [AenModel.erate s; AenModel.ech s]
  | VEnc e => let s := EncModel.set e in Forall int32 [EncModel.bitrate s; EncModel.fps s; EncModel.gop s; EncModel.gopTime s; EncModel.lookahead s; EncModel.threads s; EncModel.bFrames s] /\
      - 2 ^ 63 <= EncModel.refTime e < 2 ^ 63 /\ clean (lit (EncModel.preset s))
  | VDec _ w h => Forall int32 [w; h]
  | Dash d => clean (MpdModel.basePath d) /\ clean (MpdModel.baseName d) /\ int32 (MpdModel.segDur d) /\ (forall m, MpdModel.mgr d = Some m -> Forall int32 [MpdModel.maxSeg m; MpdModel.minBufferTime m]) /\
      Forall int32 (mkeys (MpdModel.vslots d) ++ mkeys (MpdModel.aslots d))
  | Dmx u l => clean u /\ Forall (fun x => int32 (fst x) /\ match snd x with DAudio k r n f => Forall int32 [k; r; n; f] | DVideo k => int32 k end) l
  | Shm _ a i => Forall int32 [a; i]
  | Tx l => Forall (fun x => plainConn (snd x)) l
  end.
(** No connection of the transmitter has more than one stream. *)
Definition oneStream (st : state) : Prop := match st with Tx l => Forall (fun x => (List.length (streams (snd x)) <= 1)%nat) l | _ => True end.

(** *** Setting and telling. [about st a c o]: [o] is the object, within the report of [st], that tells what the action
    [a] with parameters [c] sets: the entry of the same number, or the whole report. *)
Inductive about : state -> string -> fields -> fields -> Prop :=
| ab_gain n m a c o id l : In a ["changeChannelGain"; "muteChannel"] -> number c "id" id -> member (report (AMix n m)) "gains" (Arr l) -> In (Obj o) l -> number o "id" id -> about (AMix n m) a c o
| ab_master n m a c : In a ["changeMasterGain"; "muteMaster"] -> about (AMix n m) a c (report (AMix n m))
| ab_channel m c o id l : number c "id" id -> member (report (VMix m)) "channels" (Arr l) -> In (Obj o) l -> number o "id" id -> about (VMix m) "configChannel" c o
| ab_size m c : about (VMix m) "configure" c (report (VMix m))
| ab_crop s c o id l : number c "id" id -> member (report (Split s)) "crops" (Arr l) -> In (Obj o) l -> number o "id" id -> about (Split s) "configCrop" c o
| ab_ftime s c : about (Split s) "configure" c (report (Split s))
| ab_decoder s c : about (ADec s) "configure" c (report (ADec s))
| ab_aencoder s c : about (AEnc s) "configure" c (report (AEnc s))
| ab_encoder e c : about (VEnc e) "configure" c (report (VEnc e))
| ab_dasher d c : about (Dash d) "configure" c (report (Dash d)).
(** The name under which a report tells a parameter; None: it is not told. *)
Definition toldAs (st : state) (a k : string) : option string :=
  match st with
  | AMix _ _ => if String.eqb a "changeMasterGain" then Some "masterGain" else Some k
  | VMix _ => if String.eqb k "fps" then None else Some k
  | Split _ => if String.eqb k "fTime" then Some "frameTime" else Some k
  | AEnc _ => if String.eqb k "bitrate" then None else Some k
  | Dash _ => if String.eqb k "maxSeg" then Some "maxSegments" else if String.eqb k "minBuffTime" then Some "minBufferTime" else Some k
  | _ => Some k
  end.
(** [o] has, under those names, the values [c] gives to the parameters [l]. *)
Definition agree (st : state) (a : string) (c o : fields) (l : list (string * kind)) : Prop :=
  Forall (fun x => forall k, toldAs st a (fst x) = Some k -> match snd x with
    | KInt | KNat => forall z, number c (fst x) z -> number o k z
    | KReal => forall v, real c (fst x) v -> shown o k v
    | KText => forall s, text c (fst x) s -> text o k s
    | KBool => forall b, flag c (fst x) b -> flag o k b
    | _ => False end) l.
(** What is muted has no gain. *)
Definition muted (a : string) (o : fields) : Prop := (a = "muteChannel" -> shown o "gain" 0) /\ (a = "muteMaster" -> shown o "masterGain" 0).
(** The orders a filter takes with exactly the values they have; a width without a height is not one of them. *)
Definition within (v : env) (st : state) (c : fields) (o : order) : Prop :=
  match st, o with
  | AMix _ m, ToMixer (MixModel.EGain id g) => mmem id (MixModel.gains m) = true /\ 0 <= g <= one /\ plain g
  | AMix _ m, ToMixer (MixModel.EMaster g) => plain g
  | VMix m, ToVideoMixer (VidModel.VConf id k) => mmem id (VidModel.cfg m) = true /\ 0 <= VidModel.cx k /\ 0 <= VidModel.cy k /\ 0 < VidModel.cw k /\ 0 < VidModel.ch k /\
      0 <= VidModel.cop k <= one /\ 0 <= VidModel.clayer k <= VidModel.maxCh m /\ Forall plain [VidModel.cw k; VidModel.ch k; VidModel.cx k; VidModel.cy k; VidModel.cop k]
  | VMix m, ToVideoMixer (VidModel.VSize w h _) => 0 < w <= 1920 /\ 0 < h <= 1080 /\ (absent c "width" <-> absent c "height")
  | Split s, ToSplitter (Crop id w h x y d) => mmem id (VidModel.crops (base s)) = true /\ 0 <= x /\ 0 <= y /\ 0 < w /\ 0 < h /\ -360 <= d <= 360
  | Split s, ToSplitter (FrameTime t) => 0 <= t
  | ADec _, ToDecoder q => AdcModel.qFmt q <> Some S_NONE
  | AEnc s, ToAudioEncoder q => AenModel.ecodec s = AC_NONE /\ AenModel.qCodec q <> Some AC_NONE
  | VEnc e, ToEncoder (EncModel.Configure r) => let s := EncModel.set e in
      0 < given (EncModel.rBitrate r) (EncModel.bitrate s) /\ 0 < given (EncModel.rFps r) (EncModel.fps s) /\ 0 < given (EncModel.rGop r) (EncModel.gop s) /\
      0 <= given (EncModel.rLookahead r) (EncModel.lookahead s) /\ 0 < given (EncModel.rThreads r) (EncModel.threads s) /\
      given (EncModel.rPreset r) (EncModel.preset s) <> "" /\ (forall p, EncModel.rPreset r = Some p -> clean (lit p)) /\
      (given (EncModel.rGopTime r) (EncModel.gopTime s) = 0 \/ 1000000 <= given (EncModel.rGopTime r) (EncModel.gopTime s))
  | Dash _, ToDasher (Setup f b du ms mb) => writable v = true /\ (exists p, f = p ++ lit "/") /\ b <> [] /\ clean f /\ clean b /\ 0 < du /\ 2 <= ms /\ 2 * du <= mb <= ms * du /\ ms * du < 2 ^ 32
  | _, _ => False
  end.

(** *** The states filters get into: from the new filter, by events and by what else happens to them. *)
Inductive lives : state -> Prop :=
| lv_amix n r c : lives (AMix n (MixModel.newMixer r c))
| lv_amix_step n m e : lives (AMix n m) -> lives (AMix n (snd (MixModel.step e m)))
| lv_vmix n w h t m : VidModel.newVM n w h t = Some m -> lives (VMix m)
| lv_vmix_step m e : lives (VMix m) -> lives (VMix (VidModel.vmStep e m))
| lv_split t b : lives (Split (mkSpl t (VidModel.sp0 b) (fun _ => 0)))
| lv_split_add s id : lives (Split s) -> lives (Split (addCrop id s))
| lv_split_crop s j id w h x y d : lives (Split s) -> lives (Split (setCrop j id w h x y d s))
| lv_split_time s t : lives (Split s) -> lives (Split (mkSpl (setFrameTime t (ftime s)) (base s) (deg s)))
| lv_split_del s id : lives (Split s) -> lives (Split (mkSpl (ftime s) (snd (VidModel.delCrop id (base s))) (deg s)))
| lv_split_frame s W H p dsts j : lives (Split s) -> lives (Split (mkSpl (ftime s) (VidModel.spStep j (VidModel.SFrame W H p dsts) (base s)) (deg s)))
| lv_adec s : lives (ADec s)
| lv_aenc s : lives (AEnc s)
| lv_venc : lives (VEnc EncModel.enc0)
| lv_venc_step l o e : lives (VEnc e) -> lives (VEnc (fst (EncModel.step l o e)))
| lv_dash j : lives (Dash (MpdModel.newDasher j))
| lv_dash_step o d : lives (Dash d) -> lives (Dash (MpdModel.step o d)).
(** The manifest covers less than 2^32 seconds. *)
Definition short (st : state) : Prop := match st with Dash d => forall m, MpdModel.mgr d = Some m -> 0 <= MpdModel.segDur d /\ MpdModel.maxSeg m * MpdModel.segDur d < 2 ^ 32 | _ => True end.

(** *** Sending back what was told: an entry of a list with the action that sets it, the whole object with "configure". *)
Inductive back : state -> string -> fields -> Prop :=
| bk_gain n m o l : member (report (AMix n m)) "gains" (Arr l) -> In (Obj o) l -> back (AMix n m) "changeChannelGain" o
| bk_channel m o l : member (report (VMix m)) "channels" (Arr l) -> In (Obj o) l -> back (VMix m) "configChannel" o
| bk_crop s o l : member (report (Split s)) "crops" (Arr l) -> In (Obj o) l -> back (Split s) "configCrop" o
| bk_whole st id r : match st with VMix _ | ADec _ | AEnc _ | VEnc _ | Dash _ => True | _ => False end -> back st "configure" (filterNode id r st).
(** The object with another value of the member [k]. *)
Definition change (k : string) (n : node) (c : fields) : fields := map (fun x => if streq (fst x) (lit k) then (fst x, n) else x) c.

(** The floats of the report are 0 or between a ten-thousandth and a million. *)
Definition sized (v : Z) : Prop := v = 0 \/ (one <= Z.abs v * 10000 /\ Z.abs v <= 999999 * one).
Definition sizedState (st : state) : Prop :=
  match st with
  | AMix _ m => sized (MixModel.master m) /\ Forall (fun x => sized (snd x)) (MixModel.gains m)
  | VMix m => Forall (fun x => Forall sized [VidModel.cw (snd x); VidModel.ch (snd x); VidModel.cx (snd x); VidModel.cy (snd x); VidModel.cop (snd x)]) (VidModel.cfg m)
  | _ => True
  end.
