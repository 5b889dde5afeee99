(** Model of the NAL unit handling of the dasher: DashVideoSegmenter.cpp, DashVideoSegmenterAVC.cpp and
    DashVideoSegmenterHEVC.cpp, and of the AAC header handling of DashAudioSegmenter.cpp and
    transmitter/ADTSStreamParser.cpp.

    Not modelled: the pointers behind tmpFrame and vFrame (the two pictures are swapped as values),
    the origin time and sequence number of frames. *)
From Verif Require Import Base Bytes.
Local Open Scope list_scope.
Local Open Scope Z_scope.

(** An input frame: [nraw], its getLength() bytes; [nstale], what its buffer holds after them. *)
Record nal := mkNal { nraw : bytes; nstale : bytes; npts : Z; ndts : Z; nw : Z; nh : Z }.
(** A picture under construction (InterleavedVideoFrame): its bytes, times and size. *)
Record pict := mkPict { pbytes : bytes; ppts : Z; pdts : Z; pw : Z; ph : Z }.

(** Frame.hh 32. *)
Definition NO_DTS : Z := -1.
(** Frame::getFrameTime, Frame.cpp 52-59. *)
Definition frameTime (pts dts : Z) : Z := if negb (dts =? NO_DTS) && (dts <=? pts) then dts else pts.

(** Types.hh 43. *)
Definition LENGTH_H264_FRAME : Z := 1024 * 1024 * 10.

(** DashVideoSegmenter::detectStartCode, DashVideoSegmenter.cpp 181-193: it looks at four bytes of the
    buffer, whatever the length of the frame. *)
Definition detectStartCode (buf : bytes) : nat :=
  let b i := nth i buf 0 in
  if b 0%nat * 65536 + b 1%nat * 256 + b 2%nat =? 1 then 3%nat
  else if b 0%nat * 16777216 + b 1%nat * 65536 + b 2%nat * 256 + b 3%nat =? 1 then 4%nat
  else 0%nat.

(** What parseNal distinguishes; the other types are refused. *)
Inductive kind := KVps | KSps | KPps | KSei | KAud | KKey | KNonKey.
(** Model's own: which of the two segmenters. *)
Inductive codec := AVC | HEVC.
(** DashVideoSegmenterAVC.hh 31, 38-43, DashVideoSegmenterAVC.cpp 83, 87-110. *)
Definition avcKind (b : Z) : option kind :=
  match b mod 32 with
  | 7 => Some KSps | 8 => Some KPps | 6 => Some KSei | 5 => Some KKey | 1 => Some KNonKey | 9 => Some KAud
  | _ => None
  end.
(** DashVideoSegmenterHEVC.hh 31, 59-69, DashVideoSegmenterHEVC.cpp 85, 89-120. *)
Definition hevcKind (b : Z) : option kind :=
  match b / 2 mod 64 with
  | 32 => Some KVps | 33 => Some KSps | 34 => Some KPps | 39 | 40 => Some KSei | 35 => Some KAud
  | 19 | 20 | 21 => Some KKey | 0 | 1 => Some KNonKey
  | _ => None
  end.
(** Model's own, of the two tables above. *)
Definition kindOf (c : codec) : Z -> option kind := match c with AVC => avcKind | HEVC => hevcKind end.
(** Model's own, of the two tables above. *)
Definition isSlice (k : kind) : bool := match k with KKey | KNonKey => true | _ => false end.

(** The state of a video segmenter that NAL units change. *)
Record vstate := mkV { tmpFrame : pict; vFrame : pict; currentIntra : bool; previousIntra : bool;
                       vps : bytes; sps : bytes; pps : bytes; extradata : bytes }.

(** DashVideoSegmenter::appendNalToFrame 156-178. *)
Definition appendNalToFrame (f : pict) (n : bytes) (w h pts dts : Z) : option pict :=
  if LENGTH_H264_FRAME <? len (pbytes f) + len n + 4 then None
  else Some (mkPict (pbytes f ++ be 4 (len n) ++ n) pts dts w h).

(** saveVPS, saveSPS, savePPS: AVC 132-142, HEVC 142-158. *)
Definition save (k : kind) (n : bytes) (s : vstate) : vstate :=
  match k with
  | KVps => mkV (tmpFrame s) (vFrame s) (currentIntra s) (previousIntra s) n (sps s) (pps s) (extradata s)
  | KSps => mkV (tmpFrame s) (vFrame s) (currentIntra s) (previousIntra s) (vps s) n (pps s) (extradata s)
  | KPps => mkV (tmpFrame s) (vFrame s) (currentIntra s) (previousIntra s) (vps s) (sps s) n (extradata s)
  | _ => s
  end.
(** Model's own: field updates. *)
Definition setIntra (cur prev : bool) (s : vstate) : vstate :=
  mkV (tmpFrame s) (vFrame s) cur prev (vps s) (sps s) (pps s) (extradata s).
(** Model's own: field updates. *)
Definition setFrames (t v : pict) (s : vstate) : vstate :=
  mkV t v (currentIntra s) (previousIntra s) (vps s) (sps s) (pps s) (extradata s).
(** resetFrame, DashVideoSegmenterAVC.hh and HEVC.hh: only the length is reset. *)
Definition resetFrame (f : pict) : pict := mkPict [] (ppts f) (pdts f) (pw f) (ph f).

(** The outcome of parseNal: whether it returns vFrame. [Wild]: the length of the unit is computed as a
    huge unsigned number and memory is read out of bounds. *)
Inductive parsed := Parsed (newFrame : bool) (s : vstate) | Wild.

(** parseNal, AVC 66-130 and HEVC 68-140. They differ in the type of nalDataLength (unsigned in AVC,
    signed in HEVC), in the types, and in that only AVC asks for a picture that is not empty. *)
Definition parseNal (c : codec) (n : nal) (s : vstate) : parsed :=
  let off := detectStartCode (nraw n ++ nstale n) in
  let nalData := skipn off (nraw n) in
  if (length (nraw n) <? off)%nat then match c with AVC => Wild | HEVC => Parsed false s end
  else match nalData with
  | [] => Parsed false s
  | b :: _ =>
      let prev := currentIntra s in
      match kindOf c b with
      | None => Parsed false (setIntra (currentIntra s) prev s)
      | Some k =>
          let cur := match k with KKey => true | KAud => currentIntra s | _ => false end in
          let s := setIntra cur prev (save k nalData s) in
          let later := frameTime (ppts (tmpFrame s)) (pdts (tmpFrame s)) <? frameTime (npts n) (ndts n) in
          let aud := match k with KAud => true | _ => false end in
          let full := match c with AVC => negb (len (pbytes (tmpFrame s)) =? 0) | HEVC => true end in
          let newFrame := (aud || later) && full in
          let s := if newFrame then setFrames (resetFrame (vFrame s)) (tmpFrame s) s else s in
          let s := if isSlice k
                   then match appendNalToFrame (tmpFrame s) nalData (nw n) (nh n) (npts n) (ndts n) with
                        | Some t => setFrames t (vFrame s) s
                        | None => s
                        end
                   else s in
          Parsed newFrame s
      end
  end.

(** *** Decoder configuration. [None]: reads past the end of the parameter set. *)
(** DashVideoSegmenterAVC::createExtradata 144-162. *)
Definition avcExtradata (sps pps : bytes) : option bytes :=
  if len sps <? 3 then None
  else Some ([1] ++ firstn 3 sps ++ [252 + 3] ++ [224 + 1] ++ be 2 (len sps) ++ sps ++ [1] ++ be 2 (len pps) ++ pps).
(** DashVideoSegmenterHEVC::createExtradata 160-212, with the constants of DashVideoSegmenterHEVC.hh 31-57. *)
Definition hevcExtradata (vps sps pps : bytes) : bytes :=
  [1; 1; 96; 0; 0; 0; 144; 0; 0; 0; 0; 0; 93; 240; 0; 252; 248 + 1; 248; 248; 0; 0; 1 * 8 + 1 * 4 + 3; 3] ++
  [32] ++ be 2 1 ++ be 2 (len vps) ++ vps ++
  [33] ++ be 2 1 ++ be 2 (len sps) ++ sps ++
  [34] ++ be 2 1 ++ be 2 (len pps) ++ pps.

(** updateExtradata: AVC 44-54, HEVC 45-56. *)
Definition isEmpty (l : bytes) : bool := match l with [] => true | _ => false end.
(** DashVideoSegmenterAVC.cpp 44-54 *)
Definition updateExtradata (c : codec) (s : vstate) : option vstate :=
  match c with
  | AVC =>
      if isEmpty (sps s) || isEmpty (pps s) then Some s
      else match avcExtradata (sps s) (pps s) with
           | None => None
           | Some e => Some (mkV (tmpFrame s) (vFrame s) (currentIntra s) (previousIntra s) (vps s) [] [] e)
           end
  | HEVC =>
      if isEmpty (vps s) || isEmpty (sps s) || isEmpty (pps s) then Some s
      else Some (mkV (tmpFrame s) (vFrame s) (currentIntra s) (previousIntra s) [] [] []
                     (hevcExtradata (vps s) (sps s) (pps s)))
  end.

(** What the dasher does with one input frame: DashVideoSegmenter::manageFrame 40-66 (its setup cannot
    fail once the context exists); isPreviousFrameIntra() is the key frame mark that goes with the
    picture (118-126, 128-154). [None]: out of bounds. *)
Record output := mkOut { opict : pict; okey : bool }.
(** DashVideoSegmenter.cpp 40-66 *)
Definition manageFrame (c : codec) (n : nal) (s : vstate) : option (option output * vstate) :=
  match parseNal c n s with
  | Wild => None
  | Parsed newFrame s =>
      match updateExtradata c s with
      | None => None
      | Some s =>
          Some (if newFrame && negb (isEmpty (pbytes (vFrame s))) then Some (mkOut (vFrame s) (previousIntra s)) else None, s)
      end
  end.
(** DashVideoSegmenter.cpp 40-66, for each unit in turn. *)
Fixpoint feed (c : codec) (ns : list nal) (s : vstate) : option (list output * vstate) :=
  match ns with
  | [] => Some ([], s)
  | n :: r =>
      match manageFrame c n s with
      | None => None
      | Some (o, s) =>
          match feed c r s with
          | None => None
          | Some (os, s) => Some ((match o with Some p => [p] | None => [] end) ++ os, s)
          end
      end
  end.
(** A new segmenter: both pictures empty; Frame's constructor (Frame.cpp 26-30) does not set the
    presentation time ([junk]). *)
Definition newSegmenter (junk junk' : Z) : vstate :=
  mkV (mkPict [] junk NO_DTS 0 0) (mkPict [] junk' NO_DTS 0 0) false false [] [] [] [].

(** *** AAC. *)
(** DashAudioSegmenter.cpp 207-231 and ADTSStreamParser.cpp 106-129. *)
Definition adtsProfile (h : bytes) : Z := nth 2 h 0 / 64 mod 4.
(** DashAudioSegmenter.cpp 207-210. *)
Definition adtsFreq (h : bytes) : Z := nth 2 h 0 / 4 mod 16.
(** DashAudioSegmenter.cpp 212-215. *)
Definition adtsChannels (h : bytes) : Z := Z.lor (Z.land (nth 2 h 0) 1) (Z.land (Z.shiftr (nth 3 h 0) 6) 3).
(** DashAudioSegmenter.cpp 217-220. *)
Definition extradata1 (aot freq : Z) : Z := Z.lor (Z.shiftl aot 3) (Z.shiftr freq 1) mod 256.
(** DashAudioSegmenter.cpp 222-225. *)
Definition extradata2 (freq ch : Z) : Z := Z.lor (Z.shiftl freq 7) (Z.shiftl ch 3) mod 256.

(** The fields of the audio segmenter: the last header's values and the configuration. *)
Record astate := mkA { aprofile : Z; afreq : Z; achan : Z; aextra : bytes }.
(** DashAudioSegmenter::updateExtradata 168-200; ADTS_HEADER_LENGTH 7. *)
Definition updateAudio (f : bytes) (s : astate) : option astate :=
  if len f <? 7 then None
  else if negb ((nth 0 f 0 =? 255) && (nth 1 f 0 =? 241)) then None
  else if (aprofile s =? adtsProfile f) && (afreq s =? adtsFreq f) && (achan s =? adtsChannels f) && negb (isEmpty (aextra s))
  then Some s
  else Some (mkA (adtsProfile f) (adtsFreq f) (adtsChannels f)
                 [extradata1 (adtsProfile f + 1) (adtsFreq f); extradata2 (adtsFreq f) (adtsChannels f)]).
(** ADTSStreamParser::updateConfigString 75-105: the two bytes printed in hexadecimal into the SDP
    configuration string (modelled as the bytes). *)
Definition updateConfigString (f : bytes) : option bytes :=
  if len f <? 7 then None
  else if negb ((nth 0 f 0 =? 255) && (nth 1 f 0 =? 241)) then None
  else Some [extradata1 (adtsProfile f + 1) (adtsFreq f); extradata2 (adtsFreq f) (adtsChannels f)].
