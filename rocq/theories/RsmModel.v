(* The video resampler.

   Modelled:
     src/modules/videoResampler/VideoResampler.cpp  lines 30-50 (constructor),
        66-158 (reconfigure, doProcessFrame), 161-222 (configure0,
        configEvent), 234-264 (formats), 266-280 (setAVFrame)
     src/VideoFrame.cpp  lines 76-98, src/AVFramedQueue.cpp  lines 144-175:
        the size of a slot of the output queue

   Simplifications.
   - Pixels are not modelled: a picture is its size and format.
   - swscale and av_image_fill_arrays accept the same sizes (the oracle
     [valid]); sws_getContext fails when either side is not accepted, and
     sws_scale does not fail otherwise.
   - outPixFmt and inPixFmt are not initialised by the constructor: their
     first values are arbitrary. *)
From Coq Require Import ZArith List Bool.
From Verif Require Import NamesModel.
Import ListNotations.
Local Open Scope list_scope.
Local Open Scope Z_scope.

(* Model's own: size and format of a VideoFrame. *)
Record pic := mkPic { width : Z; height : Z; fmt : PixType }.

(* Model's own: equality of enumerators. *)
Definition pix_eqb (a b : PixType) : bool :=
  match a, b with
  | P_NONE, P_NONE | RGB24, RGB24 | RGB32, RGB32 | YUV420P, YUV420P | YUV422P, YUV422P
  | YUV444P, YUV444P | YUYV422, YUYV422 | YUVJ420P, YUVJ420P => true
  | _, _ => false
  end.

(* VideoResampler.cpp 234-264: libav has all formats but P_NONE *)
Definition known (f : PixType) : bool := negb (pix_eqb f P_NONE).

(* av_image_get_buffer_size with alignment 1 *)
Definition half (z : Z) : Z := (z + 1) / 2.
(* av_image_get_buffer_size (libav) with alignment 1, as called in VideoResampler.cpp 135. *)
Definition imageSize (p : pic) : Z :=
  let w := width p in let h := height p in
  match fmt p with
  | P_NONE => 0
  | RGB24 => 3 * w * h
  | RGB32 => 4 * w * h
  | YUYV422 => 2 * w * h
  | YUV420P | YUVJ420P => w * h + 2 * (half w * half h)
  | YUV422P => w * h + 2 * (half w * h)
  | YUV444P => 3 * w * h
  end.

(* A slot of a raw queue: DEFAULT_WIDTH * DEFAULT_HEIGHT * 3 (the resampler's
   StreamInfo says RGB24) *)
Definition slotSize : Z := 1920 * 1080 * 3.

Record rsm := mkRsm {
  ctx : option (pic * pic);         (* imgConvertCtx *)
  outW : Z; outH : Z; outFmt : PixType; needs : bool;
  inW : Z; inH : Z; inFmt : PixType;
  ftime : Z;                        (* frame time, microseconds *)
  live : nat                        (* contexts allocated and not freed *)
}.

(* VideoResampler.cpp 30-50 *)
Definition rsm0 (o i : PixType) : rsm := mkRsm None 0 0 o false 0 0 i 0 0.

(* VideoResampler.cpp 66-105: a size of 0 is that of the input. *)
Definition target (s : rsm) (f : pic) : pic :=
  mkPic (if outW s =? 0 then width f else outW s) (if outH s =? 0 then height f else outH s) (outFmt s).

Section Valid.
Variable valid : pic -> bool.

(* VideoResampler.cpp 66-105 *)
Definition reconfigure (s : rsm) (f : pic) : rsm * bool :=
  let same := match ctx s with
              | None => false
              | Some _ => negb (needs s) && (width f =? inW s) && (height f =? inH s) && pix_eqb (fmt f) (inFmt s)
              end in
  if same then (s, true)
  else
    let s1 := mkRsm (ctx s) (outW s) (outH s) (outFmt s) (needs s) (inW s) (inH s) (fmt f) (ftime s) (live s) in
    if known (fmt f) then
      let t := target s f in
      if known (outFmt s) && valid f && valid t
      then (mkRsm (Some (f, t)) (outW s) (outH s) (outFmt s) false (inW s) (inH s) (fmt f) (ftime s) (S (live s)), true)
      else (mkRsm None (outW s) (outH s) (outFmt s) (needs s) (inW s) (inH s) (fmt f) (ftime s) (live s), false)
    else (s1, false).

Inductive result :=
| Refused
| Made (p : pic) (len : Z) (conv : pic * pic)   (* the picture, and what the context converts *)
| Overflow.                                     (* beyond the slot *)

(* VideoResampler.cpp 107-158 *)
Definition process (s : rsm) (f : pic) : rsm * result :=
  let '(s1, b) := reconfigure s f in
  if b then
    if known (fmt f) && valid f then
      let s2 := mkRsm (ctx s1) (outW s1) (outH s1) (outFmt s1) (needs s1) (width f) (height f) (inFmt s1) (ftime s1) (live s1) in
      let t := target s1 f in
      if known (fmt t) && valid t then
        match ctx s1 with
        | Some c => if imageSize t <=? slotSize then (s2, Made t (imageSize t) c) else (s2, Overflow)
        | None => (s2, Refused)
        end
      else (s2, Refused)
    else (s1, Refused)
  else (s1, Refused).

(* VideoResampler.cpp 161-181 *)
Definition configure0 (s : rsm) (w h fps : Z) (p : PixType) : rsm * bool :=
  (mkRsm (ctx s) w h p true (inW s) (inH s) (inFmt s) (if fps <=? 0 then 0 else 1000000 / fps) (live s), known p).

(* VideoResampler.cpp 183-222: the cast of a number to PixType. *)
Definition pixOf (z : Z) : PixType :=
  if z =? 0 then RGB24 else if z =? 1 then RGB32 else if z =? 2 then YUV420P else if z =? 3 then YUV422P
  else if z =? 4 then YUV444P else if z =? 5 then YUYV422 else P_NONE.

(* VideoResampler.cpp 183-222; a missing parameter is None *)
Record request := mkReq { qW : option Z; qH : option Z; qFps : option Z; qFmt : option Z }.
(* VideoResampler.cpp 183-222: a parameter that is not given keeps its value. *)
Definition dflt (o : option Z) (d : Z) : Z := match o with Some z => z | None => d end.
(* VideoResampler.cpp 183-222 *)
Definition configEvent (s : rsm) (q : request) : rsm * bool :=
  let fps := dflt (qFps q) (if 0 <? ftime s then 1000000 / ftime s else 0) in
  match qFmt q with
  | Some z =>
    if (z <? -1) || (5 <? z) then (s, false)
    else configure0 s (dflt (qW q) (outW s)) (dflt (qH q) (outH s)) fps (pixOf z)
  | None => configure0 s (dflt (qW q) (outW s)) (dflt (qH q) (outH s)) fps (outFmt s)
  end.

(* Model's own: a history of the filter. *)
Inductive op := Frame (f : pic) | Configure (q : request).
(* Model's own: a history of the filter. *)
Definition step (s : rsm) (o : op) : rsm :=
  match o with
  | Frame f => fst (process s f)
  | Configure q => fst (configEvent s q)
  end.
(* Model's own: a history of the filter. *)
Definition run (s : rsm) (ops : list op) : rsm := fold_left step ops s.

End Valid.
