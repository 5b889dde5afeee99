(* The audio encoder.

   Modelled:
     src/modules/audioEncoder/AudioEncoderLibav.cpp  lines 32-59 (constructor),
        70-73 (allocQueue), 75-128 (doProcessFrame), 131-150
        (specificReaderConfig), 152-199 (configure0), 201-261 (codingConfig),
        263-291 (resamplingConfig), 293-331 (reconfigure), 333-361
        (resample), 370-419 (checks), 421-454 (configEvent)
     src/AVFramedQueue.cpp  lines 47-54, 90-103, 202-256: the queue it writes to
     src/StreamInfo.hh  lines 82-116 (setCodecDefaults)
     src/AudioFrame.cpp  lines 34-37, 57-65, 90-98

   Simplifications.
   - The library is an oracle: what it has and accepts, which samples the
     converter makes of a frame, what encoding answers.
   - A sample is a number, standing for all channels at one time.
   - The converter keeps what it cannot write and writes it first next time,
     as documented; options set on it take effect when it is initialised.
   - Frames come from an audio buffer and so are planar (140-145): the branch
     347-358 of resample is not reached.
   - A coded packet fits its frame or encoding fails, as documented. *)
From Coq Require Import ZArith List Bool.
From Verif Require Import NamesModel AdcModel.
Import ListNotations.
Local Open Scope list_scope.
Local Open Scope Z_scope.

(* codecCtx: NULL, allocated only, open *)
Inductive ctxt := NoCtx | Closed | Open.

Record enc := mkE {
  ecodec : ACodecType; ech : Z; erate : Z; efmt : SampleFmt;   (* outputStreamInfo *)
  ebit : Z; ifmt : SampleFmt;                                  (* internalLibavSampleFmt *)
  ectx : ctxt;
  spf : Z;                                                     (* samplesPerFrame *)
  buf : option (list Z);                                       (* data of libavFrame *)
  einp : params;                                               (* format, channels, rate of the input *)
  econv : swr; fifo : list Z                                   (* the converter and what it keeps *)
}.

(* AudioEncoderLibav.cpp 32-59 *)
Definition enc0 : enc := mkE AC_NONE 0 0 S_NONE 0 S_NONE NoCtx 0 None (mkPar S_NONE 0 0) NoSwr [].

(* -- Configuration -------------------------------------------------------- *)

(* An encoder of the library: the formats, rates and numbers of channels it
   lists (None: it lists none), whether it can be opened with channels, rate
   and bit rate, and its frame size (0: any). *)
Record libcodec := mkLib { lfmts : list SampleFmt; lrates : option (list Z); lchans : option (list Z);
                           lopen : Z -> Z -> Z -> bool; lframe : Z }.
(* The library's answers: the encoder, memory for a context, memory for a
   frame with its initial contents. *)
Record answers := mkAns { aFind : option libcodec; aCtx : bool; aMem : option (list Z) }.

(* AudioEncoderLibav.cpp 421-454: the parameters, None when not given. *)
Record erequest := mkEReq { qCodec : option ACodecType; qECh : option Z; qERate : option Z; qBit : option Z }.

(* AudioEncoderLibav.cpp 167-196 with StreamInfo.hh 98-112: the format of the
   stream, the internal format, whether there is a codec *)
Definition codecFmt (c : ACodecType) (old : SampleFmt) : SampleFmt :=
  match c with PCM | PCMU | OPUS | AAC => S16 | MP3 => S16P | G711 => U8 | AC_NONE => old end.
(* AudioEncoderLibav.cpp 167-196. *)
Definition innerFmt (c : ACodecType) (old : SampleFmt) : SampleFmt :=
  match c with PCM | PCMU | OPUS | AAC => S16 | MP3 => S16P | G711 | AC_NONE => old end.
(* AudioEncoderLibav.cpp 167-196. *)
Definition known (c : ACodecType) : bool :=
  match c with PCM | PCMU | OPUS | AAC | MP3 => true | _ => false end.

(* AudioEncoderLibav.cpp 370-382, 384-401, 403-419 *)
Definition listed (l : option (list Z)) (x : Z) : bool :=
  match l with None => false | Some l => existsb (Z.eqb x) l end.
(* AudioEncoderLibav.cpp 370-419. *)
Definition checks (k : libcodec) (f : SampleFmt) (rate ch : Z) : bool :=
  existsb (fmt_eqb f) (lfmts k) && listed (lrates k) rate && listed (lchans k) ch.

(* AudioFrame.cpp 34-37 *)
Definition defaultSamples (rate : Z) : Z := 20000 * rate / 1000000.

(* The data of a frame for [n] samples *)
Definition fill (n : Z) (l : list Z) : list Z := firstn (Z.to_nat n) (l ++ repeat 0 (Z.to_nat n)).

(* AudioEncoderLibav.cpp 201-261, [ok] saying that the codec has a name in the
   library *)
Definition codingConfig (s : enc) (ok : bool) (a : answers) : enc * bool :=
  match (if ok then aFind a else None) with
  | None => (s, false)
  | Some k =>
    let at_ x n b := mkE (ecodec s) (ech s) (erate s) (efmt s) (ebit s) (ifmt s) x n b (einp s) (econv s) (fifo s) in
    if aCtx a then
      if (acodec_eqb (ecodec s) PCMU || acodec_eqb (ecodec s) PCM) || checks k (ifmt s) (erate s) (ech s) then
        if lopen k (ech s) (erate s) (ebit s) then
          let n := if lframe k =? 0 then defaultSamples (prate (einp s)) else lframe k in
          match (if n <=? 0 then None else aMem a) with
          | None => (at_ Open n (buf s), false)
          | Some l => (at_ Open n (Some (fill n l)), true)
          end
        else (at_ Closed (spf s) (buf s), false)
      else (at_ Closed (spf s) (buf s), false)
    else (at_ NoCtx (spf s) (buf s), false)
  end.

(* AudioEncoderLibav.cpp 152-199, 421-454 *)
Definition configure (s : enc) (q : erequest) (a : answers) : enc * bool :=
  match ecodec s with
  | AC_NONE =>
    let c := dflt (qCodec q) (ecodec s) in
    let s1 := mkE c (dflt (qECh q) (ech s)) (dflt (qERate q) (erate s)) (codecFmt c (efmt s)) (dflt (qBit q) (ebit s))
                  (innerFmt c (ifmt s)) (ectx s) (spf s) (buf s) (einp s) (econv s) (fifo s) in
    codingConfig s1 (known c) a
  | _ => (s, false)
  end.

(* Model's own: one request after another. *)
Fixpoint requests (s : enc) (l : list (erequest * answers)) : enc * list bool :=
  match l with
  | [] => (s, [])
  | (q, a) :: t => let '(s1, b) := configure s q a in let '(s2, bs) := requests s1 t in (s2, b :: bs)
  end.

(* -- Connections ----------------------------------------------------------- *)

(* AudioEncoderLibav.cpp 131-150: the number of samples the encoder asks its
   input for, if it lets itself be connected *)
Definition reader (s : enc) (circular : bool) : option Z :=
  if spf s =? 0 then None else if circular then Some (spf s) else None.

(* AudioFrame.cpp 57-65, 90-98: are there frames? *)
Definition interleaved (f : SampleFmt) : bool := match f with U8 | S16 | FLT => true | _ => false end.
(* AudioEncoderLibav.cpp 70-73, AVFramedQueue.cpp 202-256: no queue, or one
   whose slots hold frames or NULL *)
Definition writer (s : enc) : option bool :=
  match ecodec s with
  | OPUS | AAC | MP3 | G711 => Some (interleaved (efmt s))
  | PCMU | PCM => if interleaved (efmt s) || planar (efmt s) then Some true else None
  | AC_NONE => None
  end.

(* AVFramedQueue.cpp 47-54, 90-103: forceGetRear on a queue of [max] slots;
   the slot found, None if it still looks after [fuel] turns *)
Fixpoint forceGetRear (fuel : nat) (max : Z) (frames : bool) (rear front : Z) : option Z :=
  if ((rear + 1) mod max =? front) || negb frames then
    match fuel with
    | O => None
    | S k => forceGetRear k max frames ((rear + (max - 1)) mod max) front
    end
  else Some rear.

(* -- Frames ---------------------------------------------------------------- *)

Inductive encoding := EErr | ENothing | EPacket (num size : Z).
Record eround := mkER {
  rpar : params; rpts : Z; rorg : Z; rseq : Z;
  rnew : list Z;                       (* what the converter makes of the frame *)
  renc : encoding
}.
(* Model's own: what is seen of a round. *)
Record packet := mkP { knum : Z; ksize : Z; ksamples : Z; kpts : Z; korg : Z; kseq : Z }.
(* Model's own: what is seen of a round. *)
Inductive eresult := ECrash | ERefused | EDelivered (p : packet).

Section Swr.
Variable alloc init : params -> params -> bool.

(* Model's own: a field update. *)
Definition setIO (s : enc) (b : option (list Z)) (i : params) (w : swr) (f : list Z) : enc :=
  mkE (ecodec s) (ech s) (erate s) (efmt s) (ebit s) (ifmt s) (ectx s) (spf s) b i w f.

(* AudioEncoderLibav.cpp 293-361: the comparison of a frame with the input so far. *)
Definition par_eqb (a b : params) : bool :=
  fmt_eqb (pfmt a) (pfmt b) && (pch a =? pch b) && (prate a =? prate b).

(* AudioEncoderLibav.cpp 263-331 *)
Definition ereconf (s : enc) (i : params) : enc * bool :=
  if par_eqb (einp s) i then (s, true)
  else
    let o := mkPar (ifmt s) (ech s) (erate s) in
    if alloc o i then
      match econv s with
      | Ready _ _ => (setIO s (buf s) i (econv s) (fifo s), true)
      | _ => if init o i then (setIO s (buf s) i (Ready o i) [], true) else (setIO s (buf s) i Raw [], false)
      end
    else (setIO s (buf s) i NoSwr [], false).

(* AudioEncoderLibav.cpp 75-128: the state, the samples given to the encoder
   if any, the number of them that the converter wrote, and the result *)
Definition eprocess (s : enc) (r : eround) : enc * (option (list Z) * nat * eresult) :=
  let '(s1, b) := ereconf s (rpar r) in
  if b then
    match econv s1, buf s1 with
    | NoSwr, _ => (s1, (None, O, ECrash))
    | Raw, _ => (s1, (None, O, ERefused))
    | Ready _ _, None => (s1, (None, O, ECrash))
    | Ready _ _, Some d =>
      let all := fifo s1 ++ rnew r in
      let w := Nat.min (length d) (length all) in
      let d1 := firstn w all ++ skipn w d in
      let s2 := setIO s1 (Some d1) (einp s1) (econv s1) (skipn w all) in
      match w with
      | O => (s2, (None, O, ERefused))
      | _ =>
        match ectx s2 with
        | NoCtx => (s2, (None, w, ECrash))
        | Closed => (s2, (None, w, ERefused))
        | Open =>
          (s2, (Some d1, w,
            match renc r with
            | EPacket n z => EDelivered (mkP n z (Z.of_nat w) (rpts r) (rorg r) (rseq r))
            | _ => ERefused
            end))
        end
      end
    end
  else (s1, (None, O, ERefused)).

(* A history of frames, up to a crash *)
Fixpoint erun (s : enc) (rs : list eround) : enc * list (option (list Z) * nat * eresult) :=
  match rs with
  | [] => (s, [])
  | r :: t =>
    let '(s1, x) := eprocess s r in
    match snd x with
    | ECrash => (s1, [x])
    | _ => let '(s2, l) := erun s1 t in (s2, x :: l)
    end
  end.

End Swr.
