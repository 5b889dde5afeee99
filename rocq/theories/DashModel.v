(** Model of src/modules/dasher/i2libdash.c (segment contexts) and of the per-stream part of the
    dasher, DashVideoSegmenter / DashAudioSegmenter / DashSegmenter (Dasher.cpp 100-130, 620-683).

    Unsigned fields are integers reduced modulo 2^32 (or 2^16, 2^64) where C converts. Not modelled:
    NULL contexts and buffers; malloc. Fields that C leaves uninitialised are parameters. *)
From Coq Require Import String.
From Verif Require Import Base Bytes IsoModel.
Local Open Scope list_scope.
Local Open Scope Z_scope.

(** Model's own: unsigned arithmetic. *)
Definition u16 (z : Z) : Z := z mod 65536.
(** Model's own: unsigned arithmetic. *)
Definition u32 (z : Z) : Z := z mod 4294967296.
(** Model's own: unsigned arithmetic. *)
Definition u64 (z : Z) : Z := z mod 18446744073709551616.

(** i2context.h 34-36. *)
Definition MAX_MDAT_SAMPLE : Z := 65536.
(** i2context.h 34-36. *)
Definition MAX_DAT : Z := 10 * 1024 * 1024.

(** generate_context, i2libdash.c 126-149 with video_context_initializer 75-90,
    video_sample_context_initializer 115-124, audio_context_initializer 47-62,
    audio_sample_context_initializer 64-73. [junkDur], [junkTarget]: sample_duration of a video context
    and duration, never written here. *)
Definition generate_context (m : media) (junkDur junkTarget : Z) : option ctx :=
  match m with
  | NO_TYPE => None
  | _ => Some (mkCtx m [] [] 0 junkDur 0 0 0 0 0 0 0 0 [] (if isVideo m then 3841 else 769) 0 0 junkTarget)
  end.

(** fill_video_context 151-166: width and height are 16 bit fields. *)
Definition fill_video_context (c : ctx) (w h tb : Z) : ctx :=
  mkCtx (cmedia c) (cconfig c) (cdata c) (u32 tb) (csampledur c) (u16 w) (u16 h) (cchannels c) (crate c) (cbits c) (cept c) (cseq c)
        (cdur c) (csamples c) (cflags c) (cmoof c) (ctrun c) (ctarget c).
(** fill_audio_context 168-185: channels, rate and sample size are 16 bit fields. *)
Definition fill_audio_context (c : ctx) (ch sr bits tb sd : Z) : ctx :=
  mkCtx (cmedia c) (cconfig c) (cdata c) (u32 tb) (u32 sd) (cwidth c) (cheight c) (u16 ch) (u16 sr) (u16 bits) (cept c) (cseq c)
        (cdur c) (csamples c) (cflags c) (cmoof c) (ctrun c) (ctarget c).
(** set_segment_duration 38-41. *)
Definition set_segment_duration (d : Z) (c : ctx) : ctx :=
  mkCtx (cmedia c) (cconfig c) (cdata c) (ctimebase c) (csampledur c) (cwidth c) (cheight c) (cchannels c) (crate c) (cbits c) (cept c) (cseq c)
        (cdur c) (csamples c) (cflags c) (cmoof c) (ctrun c) (u32 d).

(** new_init_video_handler 187-214. *)
Definition new_init_video_handler (metadata : bytes) (c : ctx) : option (bytes * ctx) :=
  if len metadata <? 1 then None
  else if (cwidth c =? 0) || (cheight c =? 0) then None
  else initVideoGenerator metadata c.
(** init_audio_handler 280-297. *)
Definition init_audio_handler (data : bytes) (c : ctx) : option (bytes * ctx) :=
  if len data <? 1 then None else initAudioGenerator data c.

(** The parts of the context that grow and are reset. *)
Definition withSegment (c : ctx) (data : bytes) (ept sq dur : Z) (ss : list sample) (mp tp : Z) : ctx :=
  mkCtx (cmedia c) (cconfig c) data (ctimebase c) (csampledur c) (cwidth c) (cheight c) (cchannels c) (crate c) (cbits c) ept sq
        dur ss (cflags c) mp tp (ctarget c).
(** context_refresh 92-113. *)
Definition context_refresh (c : ctx) : ctx := withSegment c [] 0 0 0 [] 0 0.

(** Write the duration of the last sample. *)
Fixpoint setLastDur (d : Z) (ss : list sample) : list sample :=
  match ss with
  | [] => []
  | [s] => [mkSample (ssize s) d (spts s) (skey s) (sdts s)]
  | s :: r => s :: setLastDur d r
  end.
(** Model's own: the entry of the last sample. *)
Definition lastSample (ss : list sample) : option sample := match rev ss with [] => None | s :: _ => Some s end.

(** What adding a sample can do. [Outside]: memcpy or the sample table goes past its array. *)
Inductive added := Refused | Added (c : ctx) | Outside.
(** Model's own: memcpy and the sample table stay in their arrays. *)
Definition fits (c : ctx) (data : bytes) : bool :=
  (len (cdata c) + len data <=? MAX_DAT) && (Z.of_nat (length (csamples c)) <? MAX_MDAT_SAMPLE).

(** add_video_sample 409-462. [stale]: what the table holds as the duration of this entry. *)
Definition add_video_sample (data : bytes) (pts dts sq : Z) (intra : bool) (stale : Z) (c : ctx) : added :=
  if len data <? 1 then Refused
  else match lastSample (csamples c) with
  | None =>
      if negb intra then Refused
      else if negb (fits c data) then Outside
      else Added (withSegment c (cdata c ++ data) pts sq 0 [mkSample (len data) stale pts intra dts] (cmoof c) (ctrun c))
  | Some p =>
      if negb (fits c data) then Outside
      else let d := u32 (dts - sdts p) in
           Added (withSegment c (cdata c ++ data) (cept c) (cseq c) (u32 (cdur c + d))
                              (setLastDur d (csamples c) ++ [mkSample (len data) stale pts intra dts]) (cmoof c) (ctrun c))
  end.

(** add_audio_sample 464-506. *)
Definition add_audio_sample (data : bytes) (sampleDur pts dts sq : Z) (c : ctx) : added :=
  if len data <? 1 then Refused
  else if sampleDur <? 1 then Refused
  else if negb (fits c data) then Outside
  else
    let first := match csamples c with [] => true | _ => false end in
    Added (withSegment c (cdata c ++ data) (if first then pts else cept c) (if first then sq else cseq c) (u32 (cdur c + sampleDur))
                       (csamples c ++ [mkSample (len data) sampleDur pts true dts]) (cmoof c) (ctrun c)).

(** A segment given out: its bytes, start and duration. *)
Record segment := mkSegment { gbytes : bytes; gstart : Z; gdur : Z }.

(** generate_video_segment 299-350. [nextPts] is converted to 32 bits by the call. When the
    generator fails the changed duration stays. *)
Definition generate_video_segment (nextIntra : bool) (nextPts : Z) (c : ctx) : option segment * ctx :=
  match lastSample (csamples c) with
  | None => (None, c)
  | Some l =>
      let lastDur := u32 (u32 nextPts - spts l) in
      if nextIntra && (u32 (ctarget c - lastDur) <=? u32 (cdur c + lastDur)) then
        let c1 := withSegment c (cdata c) (cept c) (cseq c) (u32 (cdur c + lastDur)) (setLastDur lastDur (csamples c)) (cmoof c) (ctrun c) in
        match segmentGenerator (cdata c1) (cmedia c1) c1 0 with
        | Some (out, c2) => (Some (mkSegment out (cept c2) (cdur c2)), context_refresh c2)
        | None => (None, c1)
        end
      else (None, c)
  end.

(** generate_audio_segment 352-380, force_generate_audio_segment 382-407. *)
Definition generate_audio_segment (force : bool) (c : ctx) : option segment * ctx :=
  if force || (ctarget c <=? cdur c) then
    match segmentGenerator (cdata c) AUDIO c 0 with
    | Some (out, c2) => (Some (mkSegment out (cept c2) (cdur c2)), context_refresh c2)
    | None => (None, c)
    end
  else (None, c).

(** *** The segmenters: a context and the number of the segment being filled. *)
Record segmenter := mkSeg { gctx : ctx; gseq : Z }.

(** A complete picture, as DashVideoSegmenter::manageFrame returns it, its times already in time base
    units (microsToTimeBase, Dasher.cpp 680-683). *)
Record vframe := mkVFrame { fbytes : bytes; fpts : Z; fdts : Z; fintra : bool }.

(** One picture: Dasher::doProcessFrame, Dasher.cpp 119-129: generateSegment (DashSegmenter::generateSegment
    644-678 with DashVideoSegmenter::customGenerateSegment, DashVideoSegmenter.cpp 118-126) and then
    appendFrameToDashSegment (128-154). [None]: the arrays are overrun. *)
Definition videoFrame (stale : Z) (f : vframe) (s : segmenter) : option (option segment * segmenter) :=
  let '(o, c) := generate_video_segment (fintra f) (fpts f) (gctx s) in
  let sq := match o with Some _ => u32 (gseq s + 1) | None => gseq s end in
  match add_video_sample (fbytes f) (fpts f) (fdts f) sq (fintra f) stale c with
  | Refused => Some (o, mkSeg c sq)
  | Added c => Some (o, mkSeg c sq)
  | Outside => None
  end.
(** A whole stream of pictures. *)
Fixpoint videoRun (stale : Z) (fs : list vframe) (s : segmenter) : option (list segment * segmenter) :=
  match fs with
  | [] => Some ([], s)
  | f :: r =>
      match videoFrame stale f s with
      | None => None
      | Some (o, s) =>
          match videoRun stale r s with
          | None => None
          | Some (os, s) => Some ((match o with Some g => [g] | None => [] end) ++ os, s)
          end
      end
  end.
(** A new segmenter: DashVideoSegmenter::setup, DashVideoSegmenter.cpp 68-88 (it is repeated before
    every picture, here with the same size), and the constructor,
    Dasher.cpp 630-635. [seconds]: the configured segment duration. *)
Definition newVideo (m : media) (w h tb seconds junk : Z) : option segmenter :=
  match generate_context m junk junk with
  | Some c => Some (mkSeg (set_segment_duration (seconds * tb) (fill_video_context c w h tb)) 0)
  | None => None
  end.

(** An AAC frame without its ADTS header; DashAudioSegmenter::appendFrameToDashSegment,
    DashAudioSegmenter.cpp 130-156, keeps the time in a 32 bit variable. *)
Record aframe := mkAFrame { abuf : bytes; apts : Z }.
(** DashAudioSegmenter.cpp 130-156. *)
Definition addAudio (dur : Z) (f : aframe) (s : segmenter) : option segmenter :=
  match add_audio_sample (abuf f) dur (u32 (apts f)) (u32 (apts f)) (gseq s) (gctx s) with
  | Refused => Some s
  | Added c => Some (mkSeg c (gseq s))
  | Outside => None
  end.
(** DashSegmenter::generateSegment on an audio stream: when a frame comes and there is no video
    (Dasher.cpp 227-240), or forced when the video segments are complete (352-380). *)
Definition cutAudio (force : bool) (s : segmenter) : option segment * segmenter :=
  let '(o, c) := generate_audio_segment force (gctx s) in
  (o, mkSeg c (match o with Some _ => u32 (gseq s + 1) | None => gseq s end)).
(** Dasher.cpp 227-240, 352-380, as a history. *)
Inductive aop := AddA (f : aframe) | CutA (force : bool).
(** Dasher.cpp 227-240, 352-380, as a history. *)
Fixpoint audioRun (dur : Z) (ops : list aop) (s : segmenter) : option (list segment * segmenter) :=
  match ops with
  | [] => Some ([], s)
  | AddA f :: r => match addAudio dur f s with None => None | Some s => audioRun dur r s end
  | CutA b :: r =>
      let '(o, s) := cutAudio b s in
      match audioRun dur r s with
      | None => None
      | Some (os, s) => Some ((match o with Some g => [g] | None => [] end) ++ os, s)
      end
  end.
(** DashAudioSegmenter::setup, DashAudioSegmenter.cpp 62-86: the time base is the sample rate. *)
Definition newAudio (ch sr bits samples seconds junk : Z) : option segmenter :=
  match generate_context AUDIO junk junk with
  | Some c => Some (mkSeg (set_segment_duration (seconds * sr) (fill_audio_context c ch sr bits sr samples)) 0)
  | None => None
  end.
