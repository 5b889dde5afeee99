(* The camera: configuration and resources.

   Modelled:
     src/modules/V4LCapture/V4LCapture.cpp  lines 41-54 (constructor), 61-90
        (configure), 92-101 (specificWriterConfig), 103-121 (releaseDevice),
        176-183 (allocQueue), 238-264 (openDevice), 266-322 (init_mmap),
        324-334 (closeDevice), 336-445 (initDevice), 447-464 (uninitDevice),
        466-497 (startCapturing), 499-516 (stopCapturing), 533-550
        (doGetState), 552-573 (configureEvent), 590-679 (names)
     src/modules/V4LCapture/V4LCapture.hh  lines 44, 52, 83-103
     src/VideoFrame.cpp  lines 69-98, src/AVFramedQueue.cpp 144-175: the
        frames of the queue it writes to

   Simplifications.
   - The system is an oracle: an [env] holds its answers during one call of
     the filter. What the filter asks and gets is written to a log.
   - The kernel gives every mapping a new number; the answer to munmap
     depends on it.
   - A close that fails has closed the descriptor, as on Linux.
   - Crops (362-371) are asked for and ignored, as in the code.
   - Messages are not modelled. *)
From Coq Require Import ZArith List Bool String Ascii.
From Verif Require Import NamesModel JsonModel.
From Verif Require CtlModel.
Import ListNotations.
Local Open Scope list_scope.
Local Open Scope Z_scope.

(* V4LCapture.hh 44 *)
Inductive status := SOpen | SInit | SCapture | SClose.

(* The pixel formats of V4L2 the code names, and the others *)
Inductive fourcc := FYuyv | FYuv420 | FYuv422 | FRgb24 | FH264 | FMjpeg | FOther (n : Z).

(* V4LCapture.cpp 590-607, 609-623, 625-659 *)
Definition pixelType (f : fourcc) : PixType :=
  match f with FYuyv => YUYV422 | FYuv420 => YUV420P | FRgb24 => RGB24 | _ => P_NONE end.
(* V4LCapture.cpp 609-623 *)
Definition codecType (f : fourcc) : VCodecType :=
  match f with FH264 => H264 | FMjpeg => MJPEG | _ => VC_NONE end.
(* V4LCapture.cpp 625-659 *)
Definition getFormatFromString (s : string) : fourcc :=
  match getPixTypeFromString s with
  | YUYV422 => FYuyv
  | YUV420P => FYuv420
  | YUV422P => FYuv422
  | RGB24 => FRgb24
  | _ => match getVideoCodecFromString s with H264 => FH264 | MJPEG => FMjpeg | _ => FYuyv end
  end.

(* fmt.fmt.pix *)
Record pixfmt := mkF { fw : Z; fh : Z; ff : fourcc; fbpl : Z }.
(* Model's own: a format that was never asked for (V4LCapture.hh 83-103). *)
Definition fmt0 : pixfmt := mkF 0 0 (FOther 0) 0.
(* struct buffer, V4LCapture.hh 39-42: the number of the mapping, its size *)
Record mbuf := mkB { bmap : Z; bsize : Z }.

(* What the filter does to the system *)
Inductive ev :=
| EvOpen (name : string) (fd : Z)
| EvClose (fd : Z)
| EvFormat (w h : Z) (f : fourcc)   (* asked *)
| EvRate (num den : Z)              (* asked *)
| EvMap (m : Z)
| EvUnmap (m : Z)
| EvQueue (i : nat)
| EvOn
| EvOff.

(* V4LCapture.hh 83-103; n_buffers is the length of [bufs], which is what
   init_mmap leaves it at, and [device] is left out: nothing assigns it. *)
Record cam := mkCam {
  st : status; fd : Z; bufs : list mbuf; fmt : pixfmt;
  opix : PixType; ocodec : VCodecType;
  force : bool; dur : Z;
  log : list ev; nextm : Z
}.
(* V4LCapture.cpp 41-54; fd and frameDuration are not initialised there *)
Definition cam0 : cam := mkCam SClose (-1) [] fmt0 P_NONE RAW true 0 [] 0.

(* Model's own: one field changed. *)
Definition setSt (c : cam) (x : status) : cam :=
  mkCam x (fd c) (bufs c) (fmt c) (opix c) (ocodec c) (force c) (dur c) (log c) (nextm c).
(* Model's own: one field changed. *)
Definition setFd (c : cam) (x : Z) : cam :=
  mkCam (st c) x (bufs c) (fmt c) (opix c) (ocodec c) (force c) (dur c) (log c) (nextm c).
(* Model's own: one field changed. *)
Definition setBufs (c : cam) (x : list mbuf) : cam :=
  mkCam (st c) (fd c) x (fmt c) (opix c) (ocodec c) (force c) (dur c) (log c) (nextm c).
(* Model's own: one field changed. *)
Definition setFmt (c : cam) (x : pixfmt) : cam :=
  mkCam (st c) (fd c) (bufs c) x (opix c) (ocodec c) (force c) (dur c) (log c) (nextm c).
(* Model's own: one field changed. *)
Definition setInfo (c : cam) (p : PixType) (k : VCodecType) : cam :=
  mkCam (st c) (fd c) (bufs c) (fmt c) p k (force c) (dur c) (log c) (nextm c).
(* Model's own: one field changed. *)
Definition setForce (c : cam) (x : bool) : cam :=
  mkCam (st c) (fd c) (bufs c) (fmt c) (opix c) (ocodec c) x (dur c) (log c) (nextm c).
(* Model's own: one field changed. *)
Definition setDur (c : cam) (x : Z) : cam :=
  mkCam (st c) (fd c) (bufs c) (fmt c) (opix c) (ocodec c) (force c) x (log c) (nextm c).
(* Model's own: a system call is noted. *)
Definition say (c : cam) (e : ev) : cam :=
  mkCam (st c) (fd c) (bufs c) (fmt c) (opix c) (ocodec c) (force c) (dur c) (log c ++ [e]) (nextm c).
(* Model's own: the number of the next mapping. *)
Definition takeM (c : cam) : cam :=
  mkCam (st c) (fd c) (bufs c) (fmt c) (opix c) (ocodec c) (force c) (dur c) (log c) (nextm c + 1).

(* The answers of the system during one call *)
Record env := mkEnv {
  aFound : bool; aChar : bool; aOpen : option Z;                (* stat, S_ISCHR, open *)
  aCap : bool; aVideo : bool; aStream : bool;                   (* QUERYCAP and its flags *)
  aSet : Z -> Z -> fourcc -> option pixfmt; aGet : option pixfmt;   (* S_FMT, G_FMT *)
  aParm : Z -> option (Z * Z);                                  (* S_PARM for 1/den: the interval granted *)
  aReq : option nat; aCalloc : bool;                            (* REQBUFS, memory *)
  aQuery : nat -> option Z; aMmap : nat -> bool;                (* QUERYBUF: the size; mmap *)
  aQbuf : nat -> bool; aOn : bool; aOff : bool;                 (* QBUF, STREAMON, STREAMOFF *)
  aUnmap : Z -> bool                                            (* munmap *)
}.

(* V4LCapture.cpp 238-264 *)
Definition openDevice (c : cam) (e : env) (name : string) : cam * bool :=
  match st c with
  | SClose =>
    if aFound e && aChar e then
      match aOpen e with
      | Some n => (setSt (say (setFd c n) (EvOpen name n)) SOpen, true)
      | None => (setFd c (-1), false)
      end
    else (c, false)
  | _ => (c, false)
  end.

(* V4LCapture.cpp 324-334 *)
Definition closeDevice (c : cam) : cam :=
  match st c with SOpen => setSt (setFd (say c (EvClose (fd c))) (-1)) SClose | _ => c end.

(* V4LCapture.cpp 293-319 *)
Fixpoint mapAll (c : cam) (e : env) (l : list nat) : cam * bool :=
  match l with
  | [] => (c, true)
  | i :: t =>
    match aQuery e i with
    | None => (c, false)
    | Some n =>
      if aMmap e i then mapAll (takeM (say (setBufs c (bufs c ++ [mkB (nextm c) n])) (EvMap (nextm c)))) e t
      else (c, false)
    end
  end.

(* V4LCapture.cpp 266-322 *)
Definition init_mmap (c : cam) (e : env) : cam * bool :=
  match aReq e with
  | None => (c, false)
  | Some n =>
    if (n <? 2)%nat then (c, false)
    else if aCalloc e then mapAll (setBufs c []) e (seq 0 n)
    else (setBufs c [], false)
  end.

(* V4LCapture.cpp 373-414: the format the device is asked for or has *)
Definition askFormat (c : cam) (e : env) (w h : Z) (format : string) : cam * option pixfmt :=
  if force c then (say c (EvFormat w h (getFormatFromString format)), aSet e w h (getFormatFromString format))
  else (c, aGet e).

(* V4LCapture.cpp 416-419 *)
Definition inform (c : cam) (f : fourcc) : cam :=
  match pixelType f with
  | P_NONE => setInfo c P_NONE (codecType f)
  | p => setInfo c p (ocodec c)
  end.

(* V4LCapture.cpp 336-445, with the value [den] is left at. A failed S_FMT
   leaves the request in fmt; nothing reads it before the next one. *)
Definition initDevice (c : cam) (e : env) (w h den : Z) (format : string) : cam * bool * Z :=
  match st c with
  | SOpen =>
    if aCap e && aVideo e && aStream e then
      let '(c1, got) := askFormat c e w h format in
      match got with
      | None => (setFmt c1 fmt0, false, den)
      | Some f =>
        let c2 := say (inform (setFmt c1 f) (ff f)) (EvRate 1 den) in
        match aParm e den with
        | None => (c2, false, den)
        | Some (_, d) =>
          let '(c3, ok) := init_mmap c2 e in
          if ok then (setSt c3 SInit, true, d) else (c3, false, d)
        end
      end
    else (c, false, den)
  | _ => (c, false, den)
  end.

(* V4LCapture.cpp 453-458 *)
Fixpoint unmapAll (c : cam) (e : env) (l : list mbuf) : cam * bool :=
  match l with
  | [] => (c, true)
  | b :: t => if aUnmap e (bmap b) then unmapAll (say c (EvUnmap (bmap b))) e t else (c, false)
  end.
(* V4LCapture.cpp 447-464 *)
Definition uninitDevice (c : cam) (e : env) : cam * bool :=
  match st c with
  | SInit =>
    let '(c1, ok) := unmapAll c e (bufs c) in
    if ok then (setSt (setBufs (setFmt c1 fmt0) []) SOpen, true) else (c1, false)
  | _ => (c, false)
  end.

(* V4LCapture.cpp 474-486 *)
Fixpoint queueAll (c : cam) (e : env) (l : list nat) : cam * bool :=
  match l with
  | [] => (c, true)
  | i :: t => if aQbuf e i then queueAll (say c (EvQueue i)) e t else (c, false)
  end.
(* V4LCapture.cpp 466-497 *)
Definition startCapturing (c : cam) (e : env) : cam * bool :=
  match st c with
  | SInit =>
    let '(c1, ok) := queueAll c e (seq 0 (List.length (bufs c))) in
    if ok then if aOn e then (setSt (say c1 EvOn) SCapture, true) else (c1, false) else (c1, false)
  | _ => (c, false)
  end.

(* V4LCapture.cpp 499-516 *)
Definition stopCapturing (c : cam) (e : env) : cam * bool :=
  match st c with
  | SCapture => if aOff e then (setSt (say c EvOff) SInit, true) else (c, false)
  | _ => (c, false)
  end.

(* V4LCapture.cpp 103-121: cases fall through *)
Definition releaseInit (c : cam) (e : env) : cam * bool :=
  let '(c1, ok) := uninitDevice c e in if ok then (closeDevice c1, true) else (c1, false).
(* V4LCapture.cpp 103-121 *)
Definition releaseDevice (c : cam) (e : env) : cam * bool :=
  match st c with
  | SCapture => let '(c1, ok) := stopCapturing c e in if ok then releaseInit c1 e else (c1, false)
  | SInit => releaseInit c e
  | SOpen => (closeDevice c, true)
  | SClose => (c, true)
  end.

Inductive answer := Crash | Ret (c : cam) (ok : bool).   (* Crash: a division by zero *)

(* V4LCapture.cpp 87-89 *)
Definition finish (c : cam) (fps : Z) : answer :=
  if fps =? 0 then Crash else Ret (setDur c (1000000 / fps)) true.
(* V4LCapture.cpp 74-79, 69-79: cases fall through *)
Definition fromInit (c : cam) (e : env) (fps : Z) : answer :=
  let '(c1, ok) := startCapturing c e in
  if ok then finish c1 fps else Ret (fst (releaseDevice c1 e)) false.
(* V4LCapture.cpp 74-79. *)
Definition fromOpen (c : cam) (e : env) (w h fps : Z) (format : string) : answer :=
  let '(c1, ok, den) := initDevice c e w h fps format in
  if ok then fromInit c1 e den else Ret (fst (releaseDevice c1 e)) false.

(* V4LCapture.cpp 61-90 with the defaults of V4LCapture.hh 52: the call of
   line 82 passes fFormat for fps and leaves out the rest *)
Definition configure (c : cam) (e : env) (name : string) (w h fps : Z) (format : string) (fFormat : bool) : answer :=
  let c := setForce c fFormat in
  match st c with
  | SClose =>
    let '(c1, ok) := openDevice c e name in
    if ok then fromOpen c1 e w h fps format else Ret c1 false
  | SOpen => fromOpen c e w h fps format
  | SInit => fromInit c e fps
  | SCapture =>
    let '(c1, ok) := stopCapturing c e in
    if ok then
      let '(c2, ok2) := uninitDevice c1 e in
      if ok2 then fromOpen (setForce c2 true) e w h (if fFormat then 1 else 0) "YUYV"
      else finish c2 fps
    else finish c1 fps
  end.

(* V4LCapture.cpp 552-573: conversions of the numbers to unsigned, and None
   for an exception of the JSON library (a device or format that is no
   value) *)
Definition unsigned (n : Z) : Z := n mod 2 ^ 32.
(* V4LCapture.cpp 562, 572: Jzon's Value::IsBool and ToBool. *)
Definition isBool (n : node) : bool := match n with Val VT_BOOL _ => true | _ => false end.
(* V4LCapture.cpp 562, 572: Jzon's Value::IsBool and ToBool. *)
Definition toBool (n : node) : bool := match n with Val VT_BOOL s => streq s (lit "true") | _ => false end.
(* What configureEvent does, V4LCapture.cpp 552-573. *)
Inductive event := Refused | Throws | Configures (a : answer).
(* V4LCapture.cpp 552-573 *)
Definition configureEvent (c : cam) (e : env) (p : list (str * node)) : event :=
  match CtlModel.get "device" p, CtlModel.get "width" p, CtlModel.get "height" p, CtlModel.get "fps" p with
  | Some d, Some w, Some h, Some f =>
    if CtlModel.isNum w && CtlModel.isNum h && CtlModel.isNum f
       && match CtlModel.get "forceformat" p with Some b => isBool b | None => true end then
      match CtlModel.nodeText d, CtlModel.toInt w, CtlModel.toInt h, CtlModel.toInt f,
            match CtlModel.get "format" p with Some n => CtlModel.nodeText n | None => Some (lit "YUYV") end with
      | Some d, Some w, Some h, Some f, Some m =>
        Configures (configure c e (string_of_list_ascii d) (unsigned w) (unsigned h) (unsigned f) (string_of_list_ascii m)
                              (match CtlModel.get "forceformat" p with Some b => toBool b | None => true end))
      | _, _, _, _, _ => Throws
      end
    else Refused
  | _, _, _, _ => Refused
  end.

(* V4LCapture.cpp 661-679, 533-550; None is a division by zero. The widths
   are printed as int; the driver's are smaller than 2^31. *)
Definition statusName (s : status) : string :=
  match s with SOpen => "open" | SInit => "init" | SCapture => "capture" | SClose => "close" end.
(* V4LCapture.cpp 661-679. *)
Definition formatName (f : fourcc) : string :=
  match pixelType f with
  | P_NONE => match codecType f with VC_NONE => "unknown format" | k => getVideoCodecAsString k end
  | p => getPixTypeAsString p
  end.
(* What doGetState tells, V4LCapture.cpp 533-550. *)
Record report := mkR { rstatus : string; rcapture : option (string * Z * Z * Z * string) }.
(* V4LCapture.cpp 533-550. *)
Definition getState (c : cam) : option report :=
  match st c with
  | SCapture =>
    if dur c =? 0 then None
    else Some (mkR (statusName (st c))
                   (Some (EmptyString, fw (fmt c), fh (fmt c), Z.quot 1000000 (dur c), formatName (ff (fmt c)))))
  | _ => Some (mkR (statusName (st c)) None)
  end.

(* V4LCapture.cpp 92-101, 176-183, AVFramedQueue.cpp 144-175, VideoFrame.cpp
   69-98: the queue made for a connection, as number of frames and bytes
   in each; None if there is none *)
Definition rawBytes (p : PixType) : Z :=
  1920 * 1080 * match p with RGB24 => 3 | RGB32 => 4 | YUYV422 => 2 | _ => 3 end.
(* V4LCapture.cpp 92-101, 176-183. *)
Definition writer (c : cam) : option (Z * Z) :=
  match st c with
  | SCapture =>
    let n := match pixelType (ff (fmt c)) with P_NONE => 100 | _ => 10 end in
    match ocodec c with
    | H264 | H265 => Some (n, 2097152)
    | VP8 => Some (n, 524288)
    | RAW => match opix c with P_NONE => None | p => Some (n, rawBytes p) end
    | _ => None
    end
  | _ => None
  end.
