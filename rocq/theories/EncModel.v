(** Model of the video encoder filters: src/modules/videoEncoder/VideoEncoderX264or5.cpp (all), VideoEncoderX264.cpp
    encodeFrame 56-103 and reconfigure 128-209, VideoEncoderX265.cpp encodeFrame 60-107 and reconfigure 132-211, and the
    part of SlicedVideoFrame that counts slices (src/VideoFrame.cpp 125-141; SlicedVideoFrameQueue::addFrame 67-79 clears
    it after a picture that was delivered). The libraries x264 and x265 are oracles: opening and encoding give answers
    from outside. Pixels are left out; a picture is its times, number, size and pixel format. *)
From Coq Require Import String.
From Verif Require Import Base ZMap.
Local Open Scope list_scope.
Local Open Scope Z_scope.

(** FrameTimeParams, VideoEncoderX264or5.hh 117-121; map::operator[] of a missing key gives zeros. *)
Record params := mkP { pTime : Z; oTime : Z; seqNum : Z }.
(** VideoEncoderX264or5.hh 117-121 (value initialised). *)
Definition params0 : params := mkP 0 0 0.
(** An input picture; [pfmt] is PixType, Types.hh 67 (2 = YUV420P, 3 = YUV422P, 4 = YUV444P). *)
Record pic := mkPic { ptm : Z; otm : Z; sno : Z; wid : Z; hei : Z; pfmt : Z }.
(** VideoEncoderX264or5.cpp, where a picture is given to the codec. *)
Definition paramsOf (p : pic) : params := mkP (ptm p) (otm p) (sno p).

(** VideoEncoderX264.cpp and VideoEncoderX265.cpp. *)
Inductive lib := X264 | X265.
(** The pixel format switches: X264 137-156, X265 141-163. *)
Definition supported (l : lib) (f : Z) : bool :=
  match l with X264 => (f =? 2) || (f =? 3) || (f =? 4) | X265 => (f =? 2) || (f =? 4) end.

(** What x26*_encoder_open / x264_encoder_reconfig and x26*_encoder_headers answer. *)
Inductive opened := OpenFails | NoHeaders | Fresh | Kept.
(** What x26*_encoder_encode answers: negative, zero, or a coded picture with its pts, its dts and its NAL units. *)
Inductive answer := Fails | Delayed | Coded (pts dts : Z) (nals : list Z).

(** The settings other than gopTime; [ftime] is the filter's frame time (setFrameTime). *)
Record settings := mkSet { bitrate : Z; fps : Z; gop : Z; lookahead : Z; threads : Z; bFrames : Z; annexb : bool; preset : string; ftime : Z; gopTime : Z }.
(** VideoEncoderX264or5.hh, the fields. *)
Record enc := mkEnc { qFTP : zmap params; inPts : Z; forceIntra : bool; refTime : Z; set : settings; needsConfig : bool;
  cwid : Z; chei : Z; cfmt : Z; isOpen : bool; held : Z }.
Definition MAX_SLICES : Z := 16. (* VideoFrame.hh 32 *)
Definition MIN_GOP_TIME : Z := 1000000. (* VideoEncoderX264or5.hh 49 *)
Definition DEFAULT_FPS : Z := 25. (* Types.hh 50 *)

(** configure0, VideoEncoderX264or5.cpp 130-168. The comparisons are between unsigned values. The division of
    std::micro::den by fps is one of a signed 64 bit value by an unsigned one. *)
Definition configure0 (br f g la bf th : Z) (an : bool) (pr : string) (gt : Z) (s : settings) : option settings :=
  if (br <=? 0) || (g <=? 0) || (la <? 0) || (th <=? 0) || (String.eqb pr "") then None
  else let f' := if f <=? 0 then DEFAULT_FPS else f in
       Some (mkSet br f' g la th bf an pr (if f <=? 0 then 0 else 1000000 / f') (if gt >? 0 then if gt <? MIN_GOP_TIME then MIN_GOP_TIME else gt else 0)).

(** configEvent 170-234. A field is [Some] when the request has it and it is of the kind asked for (IsNumber, IsBool);
    the preset is taken as it is. ToInt gives an int, stored in an unsigned; bFrames goes through an unsigned and back. *)
Record request := mkRq { rBitrate : option Z; rFps : option Z; rGop : option Z; rLookahead : option Z; rBframes : option Z; rThreads : option Z; rAnnexb : option bool; rPreset : option string; rGopTime : option Z }.
(** VideoEncoderX264or5.cpp 197-229: an int stored in an unsigned. *)
Definition asUnsigned (x : Z) : Z := x mod 4294967296.
(** VideoEncoderX264or5.cpp 196-230. *)
Definition pickU (r : option Z) (old : Z) : Z := match r with Some x => asUnsigned x | None => old end.
(** VideoEncoderX264or5.cpp 196-230. *)
Definition pick {A} (r : option A) (old : A) : A := match r with Some x => x | None => old end.
(** VideoEncoderX264or5.cpp 170-234 *)
Definition configEvent (r : request) (e : enc) : enc * bool :=
  let s := set e in
  match configure0 (pickU (rBitrate r) (bitrate s)) (pickU (rFps r) (fps s)) (pickU (rGop r) (gop s)) (pickU (rLookahead r) (lookahead s))
          (pick (rBframes r) (bFrames s)) (pickU (rThreads r) (threads s)) (pick (rAnnexb r) (annexb s)) (pick (rPreset r) (preset s))
          (pickU (rGopTime r) (gopTime s)) s with
  | Some s' => (mkEnc (qFTP e) (inPts e) (forceIntra e) (refTime e) s' true (cwid e) (chei e) (cfmt e) (isOpen e) (held e), true)
  | None => (e, false)
  end.

(** The constructor, 26-38, with the defaults of VideoEncoderX264or5.hh 42-48. The codec's width and height are those of
    an uninitialised x264_param_t; no picture is compared with them because needsConfig is set. *)
Definition enc0 : enc := mkEnc [] 0 false 0 (mkSet 2000 25 25 25 4 4 true "ultrafast" 40000 0) true 0 0 (-1) false 0.

(** reconfigure: X264 128-208, X265 132-211. Gives the state, whether it succeeded and whether the codec was opened anew.
    The codec is only kept (X264 191-196) when it is open and the size does not change. *)
Definition reconfigure (l : lib) (o : opened) (p : pic) (e : enc) : enc * bool * bool :=
  if negb (needsConfig e) && (wid p =? cwid e) && (hei p =? chei e) && (pfmt p =? cfmt e) then (e, true, false)
  else if negb (supported l (pfmt p))
  then (mkEnc (qFTP e) (inPts e) (forceIntra e) (refTime e) (set e) (needsConfig e) (cwid e) (chei e) (pfmt p) (isOpen e) (held e), false, false)
  else let conf nc op := mkEnc (qFTP e) (inPts e) (forceIntra e) (refTime e) (set e) nc (wid p) (hei p) (pfmt p) op (held e) in
  match o with
  | OpenFails => (conf (needsConfig e) false, false, true)
  | NoHeaders => (conf false true, false, true)
  | Fresh => (conf false true, true, true)
  | Kept => (conf false true, true, negb (match l with X264 => isOpen e && (wid p =? cwid e) && (hei p =? chei e) | X265 => false end))
  end.

(** What is seen of one picture: what the codec was given (number, whether an intra picture is asked for, the picture), whether it
    had been opened anew, its answer, and the coded picture delivered. *)
Record out := mkOut { pres : Z; dec : Z; org : Z; seq : Z; owid : Z; ohei : Z }.
(** Model's own: what is seen of one picture. *)
Record entry := mkEn { fresh : bool; given : option (Z * bool * pic); ans : answer; deliv : option out }.

(** operator[] of the map: a missing key is inserted with zeros. *)
Definition at_ (k : Z) (m : zmap params) : zmap params * params :=
  match mfind k m with Some v => (m, v) | None => (mset k params0 m, params0) end.

(** The intra decision, doProcessFrame 74-86. *)
Definition gopCheck (g pt ref : Z) (fi : bool) : Z * bool :=
  if g >? 0 then let r := if ref =? 0 then pt else ref in if r - pt <=? 0 then (r + g, true) else (r, fi)
  else (ref, fi).

(** setSlice for each unit: whether they all fit, and how many are held afterwards. *)
Definition setSlices (h : Z) (nals : list Z) : Z * bool :=
  if h + Z.of_nat (length nals) <=? MAX_SLICES then (h + Z.of_nat (length nals), true) else (MAX_SLICES, false).

(** doProcessFrame, VideoEncoderX264or5.cpp 47-110, with encodeFrame. The frames given are VideoFrames and the destination
    a SlicedVideoFrame. fill_x264or5_picture 113-128 fails when the pixel format is none of those supported. *)
Definition process (l : lib) (o : opened) (a : answer) (p : pic) (e : enc) : enc * entry :=
  let '(e1, ok, fr) := reconfigure l o p e in
  if negb ok then (e1, mkEn fr None a None)
  else if negb (supported l (cfmt e1)) then (e1, mkEn fr None a None)
  else let '(ref, fi) := gopCheck (gopTime (set e1)) (ptm p) (refTime e1) (forceIntra e1) in
       let q1 := mset (inPts e1) (paramsOf p) (qFTP e1) in
       let with_ q n f h := mkEnc q n f ref (set e1) (needsConfig e1) (cwid e1) (chei e1) (cfmt e1) (isOpen e1) h in
       if negb (isOpen e1) then (with_ q1 (inPts e1) fi (held e1), mkEn fr None a None)
       else let g := Some (inPts e1, fi, p) in
       match a with
       | Fails => (with_ q1 (inPts e1) false (held e1), mkEn fr g a None)
       | Delayed => (with_ q1 (inPts e1 + 1) false (held e1), mkEn fr g a None)
       | Coded op dt ns =>
           let '(h, fits) := setSlices (held e1) ns in
           if negb fits then (with_ q1 (inPts e1 + 1) false h, mkEn fr g a None)
           else let '(q2, v) := at_ op q1 in
                let '(q3, w) := at_ dt q2 in
                (with_ (mdel dt q3) (inPts e1 + 1) false 0, mkEn fr g a (Some (mkOut (pTime v) (pTime w) (oTime v) (seqNum v) (wid p) (hei p))))
       end.

(** What happens to the filter: a picture (with the answers of the codec), the events forceIntra 236-240, gopReferenceTime
    242-250 and configure, and a new destination queue (an empty SlicedVideoFrame). *)
Inductive op := Picture (p : pic) (o : opened) (a : answer) | ForceIntra | SetRef (t : Z) | Configure (r : request) | NewQueue.
(** VideoEncoderX264or5.cpp 242-250. *)
Definition setRef (t : Z) (e : enc) : enc := mkEnc (qFTP e) (inPts e) (forceIntra e) t (set e) (needsConfig e) (cwid e) (chei e) (cfmt e) (isOpen e) (held e).
(** VideoEncoderX264or5.cpp 236-240. *)
Definition setForce (e : enc) : enc := mkEnc (qFTP e) (inPts e) true (refTime e) (set e) (needsConfig e) (cwid e) (chei e) (cfmt e) (isOpen e) (held e).
(** Model's own: an empty SlicedVideoFrame as the next destination. *)
Definition newQueue (e : enc) : enc := mkEnc (qFTP e) (inPts e) (forceIntra e) (refTime e) (set e) (needsConfig e) (cwid e) (chei e) (cfmt e) (isOpen e) 0.
(** Model's own: a history of the filter. *)
Definition step (l : lib) (o : op) (e : enc) : enc * list entry :=
  match o with
  | Picture p o a => let '(e', x) := process l o a p e in (e', [x])
  | ForceIntra => (setForce e, [])
  | SetRef t => (setRef t e, [])
  | Configure r => (fst (configEvent r e), [])
  | NewQueue => (newQueue e, [])
  end.
(** Model's own: a history of the filter. *)
Fixpoint run (l : lib) (ops : list op) (e : enc) : enc * list entry :=
  match ops with
  | [] => (e, [])
  | o :: r => let '(e1, x) := step l o e in let '(e2, y) := run l r e1 in (e2, x ++ y)
  end.
