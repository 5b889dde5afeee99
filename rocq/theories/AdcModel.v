(* The audio decoder.

   Modelled:
     src/modules/audioDecoder/AudioDecoderLibav.cpp  lines 29-48 (formats),
        50-72 (constructor), 83-87 (allocQueue), 89-144 (doProcessFrame),
        146-185 (configure0), 187-215 (inputConfig), 217-249 (outputConfig),
        251-292 (resample), 294-329 (checkSampleFormat), 331-354
        (configEvent), 383-454 (reconfigureDecoder)
     src/AudioFrame.cpp  lines 29-32, 100-108 and src/AudioCircularBuffer.cpp
        lines 180-220: the frame the decoder writes to

   Simplifications.
   - libav is an oracle: what opening a decoder answers, for each call of the
     decoder how many bytes it took and which samples it gave, and how many
     samples the converter wrote.
   - The converter (libswresample) as documented: options set on a context
     take effect when it is initialised.  [alloc] and [init] say whether it
     accepts the options and whether it can be initialised with them.
   - Samples are a number; what counts is which conversion they undergo.
   - The decoder is connected throughout; the frame it writes to is that of
     the settings it had when it was connected.
   - A context whose opening failed answers every call with an error. *)
From Coq Require Import ZArith List Bool.
From Verif Require Import NamesModel.
Import ListNotations.
Local Open Scope list_scope.
Local Open Scope Z_scope.

(* Sample format, channels, rate. *)
Record params := mkPar { pfmt : SampleFmt; pch : Z; prate : Z }.

(* codecCtx: NULL, dangling, allocated only, or open for a codec with the
   channels and rate it was given *)
Inductive handle := Missing | FreedCtx | Unopened | Opened (c : ACodecType) (ch rate : Z).
(* resampleCtx: NULL, not initialised, or initialised to convert to [o] from
   [i] *)
Inductive swr := NoSwr | Raw | Ready (o i : params).

Record adec := mkA {
  fCodec : ACodecType; inCh : Z; inRate : Z; inFmt : SampleFmt;
  out : params;                       (* outSampleFmt, outChannels, outSampleRate *)
  ctx : handle; conv : swr;
  slot : params;                      (* of the frame written to *)
  sSamples : Z; sLen : Z              (* its samples and length *)
}.

(* AudioDecoderLibav.cpp 50-72 and, connected with the settings [p], 83-87;
   fCodec and the length of a new frame are not initialised ([c], [l]) *)
Definition adec0 (c : ACodecType) (l : Z) (p : params) : adec :=
  mkA c 0 0 S_NONE p Missing NoSwr p 0 l.

(* Model's own: operator== of the enumerations of Types.hh. *)
Definition fmt_eqb (a b : SampleFmt) : bool :=
  match a, b with
  | S_NONE, S_NONE | U8, U8 | S16, S16 | FLT, FLT | U8P, U8P | S16P, S16P | FLTP, FLTP => true
  | _, _ => false
  end.
(* Model's own: operator== of the enumerations of Types.hh. *)
Definition acodec_eqb (a b : ACodecType) : bool :=
  match a, b with
  | AC_NONE, AC_NONE | G711, G711 | PCMU, PCMU | OPUS, OPUS | PCM, PCM | AAC, AAC | MP3, MP3 => true
  | _, _ => false
  end.

(* AudioDecoderLibav.cpp 152-181 *)
Definition bytesOf (f : SampleFmt) : Z :=
  match f with U8 | U8P => 1 | S16 | S16P => 2 | FLT | FLTP => 4 | S_NONE => 0 end.
(* Types.hh: the sample formats of planes; AudioDecoderLibav.cpp 227-240. *)
Definition planar (f : SampleFmt) : bool := match f with U8P | S16P | FLTP => true | _ => false end.

(* AudioFrame.cpp 29-32; 100-108: each of two planes has room for so many
   samples of the frame's format *)
Definition maxSamples (rate : Z) : Z := 100 * rate / 1000.
(* AudioFrame.cpp 100-108. *)
Definition planeSize (p : params) : Z := bytesOf (pfmt p) * maxSamples (prate p).

(* Does writing [n] samples as [o] into the planes of a frame for [p] stay
   within them?  An interleaved conversion writes all channels to one. *)
Definition fits (o p : params) (n : Z) : bool :=
  if planar (pfmt o) then (pch o <=? 2) && (n * bytesOf (pfmt o) <=? planeSize p)
  else n * bytesOf (pfmt o) * pch o <=? planeSize p.

(* What avcodec_find_decoder and avcodec_open2 answer, AudioDecoderLibav.cpp 187-215. *)
Inductive opening := NotFound | NoMemory | OpenFails | Opens.
Inductive configured := Good | Bad | Broken.   (* true, false, crash *)

(* AudioDecoderLibav.cpp 400-421 *)
Definition supported (c : ACodecType) : bool :=
  match c with PCMU | OPUS | AAC | MP3 => true | _ => false end.

(* Decoded samples: a number, their format (S_NONE: one the decoder does not
   know, 29-48), and how many samples the converter writes (-1: error). *)
Record got := mkGot { gnum : Z; gfmt : SampleFmt; gwritten : Z }.
(* What avcodec_decode_audio4 answers, AudioDecoderLibav.cpp 109-143. *)
Inductive call := Err | Took (len : Z) (g : option got).
(* A coded frame, AudioDecoderLibav.cpp 89-107. *)
Record coded := mkC { ccodec : ACodecType; cch : Z; crate : Z; clen : Z; cpts : Z; corg : Z; cseq : Z }.
(* A frame handed on: the samples decoded in this round, if any, with their
   conversion; the decoder that made them; its stamps (137-141), number of
   samples and length. *)
Record decoded := mkD { dsrc : option (Z * params * params * handle); dpts : Z; dorg : Z; dseq : Z; dsamples : Z; dlen : Z }.

(* What becomes of doProcessFrame, AudioDecoderLibav.cpp 89-144. *)
Inductive result := Crash | Running | Refused | Delivered (d : decoded) | Overflow.

(* Model's own: one field changed. *)
Definition setCtx (s : adec) (h : handle) : adec :=
  mkA (fCodec s) (inCh s) (inRate s) (inFmt s) (out s) h (conv s) (slot s) (sSamples s) (sLen s).
(* Model's own: one field changed. *)
Definition setConv (s : adec) (w : swr) : adec :=
  mkA (fCodec s) (inCh s) (inRate s) (inFmt s) (out s) (ctx s) w (slot s) (sSamples s) (sLen s).
(* Model's own: one field changed. *)
Definition setFmt (s : adec) (f : SampleFmt) : adec :=
  mkA (fCodec s) (inCh s) (inRate s) f (out s) (ctx s) (conv s) (slot s) (sSamples s) (sLen s).
(* Model's own: one field changed. *)
Definition setOut (s : adec) (p : params) : adec :=
  mkA (fCodec s) (inCh s) (inRate s) (inFmt s) p (ctx s) (conv s) (slot s) (sSamples s) (sLen s).
(* Model's own: one field changed. *)
Definition setIn (s : adec) (c : ACodecType) (ch rate : Z) : adec :=
  mkA c ch rate (inFmt s) (out s) (ctx s) (conv s) (slot s) (sSamples s) (sLen s).
(* Model's own: one field changed. *)
Definition setSlot (s : adec) (n l : Z) : adec :=
  mkA (fCodec s) (inCh s) (inRate s) (inFmt s) (out s) (ctx s) (conv s) (slot s) n l.

(* AudioDecoderLibav.cpp 383-454 *)
Definition reconfigure (s : adec) (f : coded) (o : opening) : adec * configured :=
  if (cch f <=? 0) || (crate f <=? 0) then (s, Bad)
  else if acodec_eqb (ccodec f) (fCodec s) && (cch f =? inCh s) && (crate f =? inRate s) then (s, Good)
  else
    let s1 := setIn s (ccodec f) (cch f) (crate f) in
    if supported (ccodec f) then
      match ctx s with
      | FreedCtx => (s1, Broken)
      | c =>
        match o with
        | NotFound => (setCtx s1 (match c with Missing => Missing | _ => FreedCtx end), Bad)
        | NoMemory => (setCtx s1 Missing, Bad)
        | OpenFails => (setCtx s1 Unopened, Bad)
        | Opens => (setCtx s1 (Opened (ccodec f) (cch f) (crate f)), Good)
        end
      end
    else (s1, Bad).

Section Swr.
Variable alloc init : params -> params -> bool.

(* AudioDecoderLibav.cpp 187-215; 223-248 is the same *)
Definition inputConfig (s : adec) : adec * bool :=
  let i := mkPar (inFmt s) (inCh s) (inRate s) in
  if alloc (out s) i then
    match conv s with
    | Ready _ _ => (s, true)
    | _ => if init (out s) i then (setConv s (Ready (out s) i), true) else (setConv s Raw, false)
    end
  else (setConv s NoSwr, false).

(* AudioDecoderLibav.cpp 294-329: the answer of inputConfig is not used *)
Definition checkSampleFormat (s : adec) (f : SampleFmt) : adec :=
  if fmt_eqb (inFmt s) f then s else fst (inputConfig (setFmt s f)).

(* AudioDecoderLibav.cpp 251-292, the frame being planar *)
Definition resample (s : adec) (f : coded) (g : got) : adec * result :=
  match conv s with
  | NoSwr => (s, Crash)
  | Raw => (s, Refused)
  | Ready o i =>
    if gwritten g <? 0 then (s, Refused)
    else if fits o (slot s) (gwritten g) then
      let s1 := setSlot s (gwritten g) (gwritten g * bytesOf (pfmt (out s))) in
      (s1, Delivered (mkD (Some (gnum g, o, i, ctx s)) (cpts f) (corg f) (cseq f) (sSamples s1) (sLen s1)))
    else (s, Overflow)
  end.

(* AudioDecoderLibav.cpp 109-143: a frame in which nothing is decoded is
   handed on as well, with what the frame held before *)
Fixpoint loop (fuel : nat) (s : adec) (f : coded) (size : Z) (calls : nat -> call) (n : nat) : adec * result :=
  if size <=? 0 then (s, Delivered (mkD None (cpts f) (corg f) (cseq f) (sSamples s) (sLen s)))
  else
    match ctx s with
    | Missing | FreedCtx => (s, Crash)
    | Unopened => (s, Refused)
    | Opened _ _ _ =>
      match fuel with
      | O => (s, Running)
      | S k =>
        match calls n with
        | Err => (s, Refused)
        | Took len None => loop k s f (size - len) calls (S n)
        | Took _ (Some g) => resample (checkSampleFormat s (gfmt g)) f g
        end
      end
    end.

(* A call of doProcessFrame (AudioDecoderLibav.cpp 89-144) with the answers of libav. *)
Record round := mkRound { rframe : coded; ropen : opening; rcalls : nat -> call }.

(* AudioDecoderLibav.cpp 89-144 *)
Definition process (fuel : nat) (s : adec) (r : round) : adec * result :=
  let f := rframe r in
  let '(s1, b) := reconfigure s f (ropen r) in
  match b with
  | Good => if clen f <=? 0 then (s1, Refused) else loop fuel s1 f (clen f) (rcalls r) 0
  | Bad => (s1, Refused)
  | Broken => (s1, Crash)
  end.

(* A request; a missing parameter is None. *)
Record request := mkReq { qFmt : option SampleFmt; qCh : option Z; qRate : option Z }.
(* AudioDecoderLibav.cpp 331-354: a parameter that is not given keeps its value. *)
Definition dflt {A} (o : option A) (d : A) : A := match o with Some z => z | None => d end.

(* AudioDecoderLibav.cpp 331-354, 146-185, 217-249 *)
Definition configEvent (s : adec) (q : request) : adec * bool :=
  let s1 := setOut s (mkPar (dflt (qFmt q) (pfmt (out s))) (dflt (qCh q) (pch (out s))) (dflt (qRate q) (prate (out s)))) in
  if (inCh s =? 0) && (inRate s =? 0) then (s1, true) else inputConfig s1.

(* A history, up to the first round that crashes, overflows or has not ended
   after [fuel] calls; a request has no result. *)
Inductive op := Frame (r : round) | Configure (q : request).
(* Model's own: the program does not go on. *)
Definition fatal (x : result) : bool := match x with Crash | Running | Overflow => true | _ => false end.
(* Model's own: a history of calls. *)
Fixpoint run (fuel : nat) (s : adec) (ops : list op) : adec * list (option result) :=
  match ops with
  | [] => (s, [])
  | Configure q :: t => let '(s2, l) := run fuel (fst (configEvent s q)) t in (s2, None :: l)
  | Frame r :: t =>
    let '(s1, x) := process fuel s r in
    if fatal x then (s1, [Some x]) else let '(s2, l) := run fuel s1 t in (s2, Some x :: l)
  end.

End Swr.
