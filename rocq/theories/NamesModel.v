(** Model of the conversions between names and enumerations: src/Utils.cpp 55-519, enumerations of
    src/Types.hh 57-89. *)
From Coq Require Import String.
From Verif Require Import Base PipeModel.
Local Open Scope string_scope.

(** Types.hh 62. *)
Inductive VCodecType := VC_NONE | H264 | H265 | VP8 | MJPEG | RAW.
(** Types.hh 67. *)
Inductive PixType := P_NONE | RGB24 | RGB32 | YUV420P | YUV422P | YUV444P | YUYV422 | YUVJ420P.
(** Types.hh 72. *)
Inductive ACodecType := AC_NONE | G711 | PCMU | OPUS | PCM | AAC | MP3.
(** Types.hh 77. *)
Inductive SampleFmt := S_NONE | U8 | S16 | FLT | U8P | S16P | FLTP.
(** Types.hh 84. *)
Inductive FilterRole := FR_NONE | REGULAR | SERVER.
(** Types.hh 89. *)
Inductive TxFormat := TX_NONE | STD_RTP | ULTRAGRID | MPEGTS.

(** Utils.cpp 55-76. *)
Definition getSampleFormatFromString (s : string) : SampleFmt :=
  if s =? "u8" then U8 else if s =? "u8p" then U8P else if s =? "s16" then S16 else if s =? "s16p" then S16P
  else if s =? "flt" then FLT else if s =? "fltp" then FLTP else S_NONE.
(** 391-420. *)
Definition getSampleFormatAsString (f : SampleFmt) : string :=
  match f with U8 => "u8" | S16 => "s16" | FLT => "flt" | U8P => "u8p" | S16P => "s16p" | FLTP => "fltp" | S_NONE => "" end.
(** 78-96. *)
Definition getPixTypeFromString (s : string) : PixType :=
  if s =? "YUYV" then YUYV422 else if s =? "YUV420" then YUV420P else if s =? "RGB24" then RGB24
  else if s =? "YUV422" then YUV422P else if s =? "YUVJ" then YUVJ420P else P_NONE.
(** 422-454. *)
Definition getPixTypeAsString (p : PixType) : string :=
  match p with
  | RGB24 => "RGB24" | RGB32 => "RGB32" | YUV420P => "YUV420P" | YUV422P => "YUV422P" | YUV444P => "YUV444P"
  | YUYV422 => "YUYV422" | YUVJ420P => "YUVJ420P" | P_NONE => "Unknown"
  end.
(** 98-118. *)
Definition getAudioCodecFromString (s : string) : ACodecType :=
  if s =? "g711" then G711 else if s =? "pcmu" then PCMU else if s =? "opus" then OPUS else if s =? "pcm" then PCM
  else if s =? "aac" then AAC else if s =? "mp3" then MP3 else AC_NONE.
(** 233-262. *)
Definition getAudioCodecAsString (c : ACodecType) : string :=
  match c with G711 => "g711" | PCMU => "pcmu" | OPUS => "opus" | PCM => "pcm" | AAC => "aac" | MP3 => "mp3" | AC_NONE => "" end.
(** 120-138. *)
Definition getVideoCodecFromString (s : string) : VCodecType :=
  if s =? "H264" then H264 else if s =? "H265" then H265 else if s =? "VP8" then VP8 else if s =? "MJPEG" then MJPEG
  else if s =? "RAW" then RAW else VC_NONE.
(** 205-231. *)
Definition getVideoCodecAsString (c : VCodecType) : string :=
  match c with H264 => "H264" | H265 => "H265" | RAW => "RAW" | VP8 => "VP8" | MJPEG => "MJPEG" | VC_NONE => "" end.
(** 140-161: compare(0, 5, ...) looks at the first five characters. *)
Definition getAudioCodecFromLibavString (s : string) : ACodecType :=
  if (s =? "pcm_alaw") || (s =? "pcm_mulaw") then G711 else if substring 0 5 s =? "pcm_u" then PCMU
  else if s =? "opus" then OPUS else if substring 0 5 s =? "pcm_s" then PCM else if s =? "aac" then AAC
  else if s =? "mp3" then MP3 else AC_NONE.
(** 163-181. *)
Definition getVideoCodecFromLibavString (s : string) : VCodecType :=
  if s =? "h264" then H264 else if s =? "hevc" then H265 else if s =? "vp8" then VP8 else if s =? "mjpeg" then MJPEG
  else if s =? "rawvideo" then RAW else VC_NONE.
(** 264-317. *)
Definition getFilterTypeAsString (t : ftype) : string :=
  match t with
  | VIDEO_DECODER => "videoDecoder" | VIDEO_ENCODER => "videoEncoder" | VIDEO_MIXER => "videoMixer"
  | VIDEO_RESAMPLER => "videoResampler" | AUDIO_DECODER => "audioDecoder" | AUDIO_ENCODER => "audioEncoder"
  | AUDIO_MIXER => "audioMixer" | RECEIVER => "receiver" | TRANSMITTER => "transmitter" | DEMUXER => "demuxer"
  | VIDEO_SPLITTER => "videoSplitter" | DASHER => "dasher" | SHARED_MEMORY => "sharedMemory" | V4L_CAPTURE => "v4lcapture"
  | FT_NONE => ""
  end.
(** 319-356. *)
Definition getFilterTypeFromString (s : string) : ftype :=
  if s =? "videoDecoder" then VIDEO_DECODER else if s =? "videoEncoder" then VIDEO_ENCODER
  else if s =? "videoMixer" then VIDEO_MIXER else if s =? "videoResampler" then VIDEO_RESAMPLER
  else if s =? "audioDecoder" then AUDIO_DECODER else if s =? "audioEncoder" then AUDIO_ENCODER
  else if s =? "audioMixer" then AUDIO_MIXER else if s =? "receiver" then RECEIVER
  else if s =? "transmitter" then TRANSMITTER else if s =? "sharedMemory" then SHARED_MEMORY
  else if s =? "dasher" then DASHER else if s =? "demuxer" then DEMUXER
  else if s =? "videoSplitter" then VIDEO_SPLITTER else if s =? "v4lcapture" then V4L_CAPTURE else FT_NONE.
(** 358-389. *)
Definition getRoleTypeFromString (s : string) : FilterRole :=
  if s =? "regular" then REGULAR else if s =? "server" then SERVER else FR_NONE.
(** Utils.cpp 372-389 *)
Definition getRoleAsString (r : FilterRole) : string := match r with REGULAR => "regular" | SERVER => "server" | FR_NONE => "" end.
(** 456-479. *)
Definition getBytesPerSampleFromFormat (f : SampleFmt) : nat :=
  match f with U8 | U8P => 1 | S16 | S16P => 2 | FLT | FLTP => 4 | S_NONE => 0 end.
(** 482-519. *)
Definition getTxFormatFromString (s : string) : TxFormat :=
  if s =? "std" then STD_RTP else if s =? "ultragrid" then ULTRAGRID else if s =? "mpegts" then MPEGTS else TX_NONE.
(** Utils.cpp 499-519 *)
Definition getTxFormatAsString (f : TxFormat) : string :=
  match f with STD_RTP => "std" | ULTRAGRID => "ultragrid" | MPEGTS => "mpegts" | TX_NONE => "" end.
