(** Model of the video mixer and the video splitter.

    A picture in memory is a function from coordinates to pixels; coordinates outside the announced size
    stand for the memory around it. cv::resize and the blending of cv::addWeighted are arguments
    ([scale], [blend]). Channel fractions are finite floats (F32). A failed CV_Assert of OpenCV throws
    ([Throws]): nothing in the program catches it. [Undef] is undefined behaviour (float or sum out of the
    range of int). *)
From Verif Require Import Base ZMap F32.
Local Open Scope Z_scope.

(** Model's own: a picture in memory. *)
Definition pixels := Z -> Z -> Z.
(** Model's own: what a function that calls OpenCV does. *)
Inductive res (A : Type) := Ok (a : A) | Throws | Undef.
Arguments Ok {A}. Arguments Throws {A}. Arguments Undef {A}.

(** Conversion of a float to int. *)
Definition intOk (v : Z) : bool := (-2147483648 <=? v) && (v <=? 2147483647).
(** A float converted to int, VideoMixer.cpp 209-246. *)
Definition toInt (v : Z) : option Z := let q := Z.quot v one in if intOk q then Some q else None.

(** *** src/modules/videoMixer/VideoMixer.cpp *)
(** ChannelConfig, 31-45. *)
Record chan := mkCh { cw : Z; ch : Z; cx : Z; cy : Z; clayer : Z; cen : bool; cop : Z }.
(** VideoMixer.cpp 31-45. *)
Definition chan0 : chan := mkCh one one 0 0 0 false one.
(** VideoMixer.hh: the fields of VideoMixer used here. *)
Record vmixer := mkVM { maxCh : Z; ow : Z; oh : Z; frameTime : Z; syncT : Z; cfg : zmap chan }.

(** configure0 187-207; createNew 51-65 makes the same checks and the constructor calls it with fps 0. *)
Definition configure (w h fps : Z) (m : vmixer) : bool * vmixer :=
  if (w <=? 0) || (1920 <? w) || (h <=? 0) || (1080 <? h) then (false, m)
  else (true, mkVM (maxCh m) w h (if 0 <? fps then 1000000 / fps else frameTime m) (syncT m) (cfg m)).
(** VideoMixer.cpp 51-80. *)
Definition newVM (chs w h ft : Z) : option vmixer :=
  if (w <=? 0) || (1920 <? w) || (h <=? 0) || (1080 <? h) then None
  else if ft <? 0 then None else Some (mkVM chs w h ft 0 []).
(** Model's own: one field changed. *)
Definition withCfg (c : zmap chan) (m : vmixer) : vmixer := mkVM (maxCh m) (ow m) (oh m) (frameTime m) (syncT m) c.
(** configChannel0 162-185. *)
Definition configChannel (id : Z) (c : chan) (m : vmixer) : bool * vmixer :=
  if negb (mmem id (cfg m)) then (false, m)
  else if (cx c <? 0) || (cy c <? 0) || (cw c <=? 0) || (ch c <=? 0) || (cop c <? 0) || (one <? cop c) then (false, m)
  else if (clayer c <? 0) || (maxCh m <? clayer c) then (false, m)
  else (true, withCfg (mset id c (cfg m)) m).
(** specificReaderConfig 248-257, specificReaderDelete 259-270. *)
Definition addChannel (id : Z) (m : vmixer) : bool * vmixer :=
  if mmem id (cfg m) then (false, m) else (true, withCfg (mset id chan0 (cfg m)) m).
(** VideoMixer.cpp 259-270. *)
Definition delChannel (id : Z) (m : vmixer) : bool * vmixer :=
  if mmem id (cfg m) then (true, withCfg (mdel id (cfg m)) m) else (false, m).

(** An input: NULL, a picture, or a frame that is not a VideoFrame. *)
Inductive input := NoFrame | Video (w h pts : Z) (p : pixels) | NotVideo.

Section Draw.
(** scale srcW srcH src dstW dstH; blend opacity src dst. *)
Variable scale : Z -> Z -> pixels -> Z -> Z -> pixels.
Variable blend : Z -> Z -> Z -> Z.

(** layoutImg(Rect(x,y,w,h)) receives img(Rect(0,0,w,h)), 232-245. Empty rectangles leave it unchanged. *)
Definition draw (x y w h op : Z) (img layout : pixels) : pixels := fun px py =>
  if (x <=? px) && (px <? x + w) && (y <=? py) && (py <? y + h)
  then if op =? one then img (px - x) (py - y) else blend op (img (px - x) (py - y)) (layout px py)
  else layout px py.

(** pasteToLayout 209-246 in a layout of [W] by [H]. cv::resize asserts that source and destination are not
    empty; Mat::operator()(Rect) asserts that the rectangle lies in the matrix. *)
Definition paste (c : chan) (W H fw fh : Z) (p : pixels) (layout : pixels) : res pixels :=
  match toInt (fmul (cw c) (W * one)), toInt (fmul (ch c) (H * one)), toInt (fmul (cx c) (W * one)), toInt (fmul (cy c) (H * one)) with
  | Some sw, Some sh, Some x, Some y =>
      let same := (fh =? sh) && (fw =? sw) in
      if negb same && ((sw <=? 0) || (sh <=? 0) || (fw <=? 0) || (fh <=? 0)) then Throws
      else
        let img := if same then p else scale fw fh p sw sh in
        if negb (intOk (x + sw)) then Undef
        else
          let w := if W <? x + sw then W - x else sw in
          if negb (intOk (y + sh)) then Undef
          else
            let h := if H <? y + sh then H - y else sh in
            if (w <? 0) || (h <? 0) then Throws
            else Ok (draw x y w h (cop c) img layout)
  | _, _, _, _ => Undef
  end.

(** What becomes of the layout, VideoMixer.cpp 98-160. *)
Inductive mixres := Mixed (layout : pixels) (ts : Z) | Refused | MThrows | MUndef.
(** The loop over the inputs for one layer, 115-137: [n] inputs left to account for. *)
Fixpoint layerLoop (m : vmixer) (lay : Z) (ins : list (Z * input)) (n : Z) (layout : pixels) (ts : Z) : mixres * Z :=
  match ins with
  | [] => (Mixed layout ts, n)
  | (id, f) :: r =>
      match mfind id (cfg m) with
      | None => layerLoop m lay r n layout ts
      | Some c =>
          if negb (clayer c =? lay) then layerLoop m lay r n layout ts
          else match f with
               | NoFrame => layerLoop m lay r (n - 1) layout ts
               | _ => if negb (cen c) then layerLoop m lay r (n - 1) layout ts
                      else match f with
                           | Video w h pts p =>
                               match paste c (ow m) (oh m) w h p layout with
                               | Ok layout' => layerLoop m lay r (n - 1) layout' (Z.max pts ts)
                               | Throws => (MThrows, n)
                               | Undef => (MUndef, n)
                               end
                           | _ => (Refused, n)
                           end
               end
      end
  end.
(** The loop over the layers, 113-142; [k] layers left. *)
Fixpoint layers (k : nat) (m : vmixer) (lay : Z) (ins : list (Z * input)) (n : Z) (layout : pixels) (ts : Z) : mixres :=
  match k with
  | O => Mixed layout ts
  | S k' => match layerLoop m lay ins n layout ts with
            | (Mixed layout' ts', n') => if n' <=? 0 then Mixed layout' ts' else layers k' m (lay + 1) ins n' layout' ts'
            | (r, _) => r
            end
  end.
(** layoutImg = cv::Scalar(0,0,0), 111. *)
Definition clear (W H : Z) (mem : pixels) : pixels := fun px py =>
  if (0 <=? px) && (px <? W) && (0 <=? py) && (py <? H) then 0 else mem px py.
(** doProcessFrame 98-160; [mem] is the memory of the destination. The result: the memory, its announced
    width, height and length, its time, and the mixer. *)
Inductive output := Picture (mem : pixels) (w h len ts : Z) | NoPicture | Throw | UB.
(** VideoMixer.cpp 98-160. *)
Definition process (ins : list (Z * input)) (mem : pixels) (m : vmixer) : output * vmixer :=
  match layers (Z.to_nat (maxCh m)) m 0 ins (Z.of_nat (length ins)) (clear (ow m) (oh m) mem) 0 with
  | Mixed layout ts =>
      let out := if frameTime m <=? 0 then ts else syncT m in
      (Picture layout (ow m) (oh m) (3 * ow m * oh m) out,
       mkVM (maxCh m) (ow m) (oh m) (frameTime m) (if frameTime m <=? 0 then ts else syncT m) (cfg m))
  | Refused => (NoPicture, m)
  | MThrows => (Throw, m)
  | MUndef => (UB, m)
  end.
End Draw.

(** Controls of the mixer. *)
Inductive vmEvent := VAdd (id : Z) | VDel (id : Z) | VConf (id : Z) (c : chan) | VSize (w h fps : Z) | VSync (t : Z).
Definition vmStep (e : vmEvent) (m : vmixer) : vmixer :=
  match e with
  | VAdd id => snd (addChannel id m) | VDel id => snd (delChannel id m)
  | VConf id c => snd (configChannel id c m) | VSize w h f => snd (configure w h f m)
  | VSync t => mkVM (maxCh m) (ow m) (oh m) (frameTime m) t (cfg m)         (* setSyncTs by the scheduler *)
  end.
(** Model's own: a history of events. *)
Definition vmRun (es : list vmEvent) (m : vmixer) : vmixer := fold_left (fun m e => vmStep e m) es m.

(** *** src/modules/videoSplitter/VideoSplitter.cpp *)
(** CropConfig 32-47; [target] is where crop.data points: memory of its own or a destination buffer. *)
Record crop := mkCrop { kw : Z; kh : Z; kx : Z; ky : Z; target : option Z }.
(** VideoSplitter.cpp 32-47. *)
Definition crop0 : crop := mkCrop 0 0 (-1) (-1) None.
(** The splitter and the memory of all destination buffers; [junk] is the content of fresh memory. *)
Record splitter := mkSp { crops : zmap crop; bufs : Z -> pixels }.
(** Model's own: one buffer changed. *)
Definition setBuf (b : Z) (p : pixels) (f : Z -> pixels) : Z -> pixels := fun i => if i =? b then p else f i.
(** The part of [p] with the given size, at the origin of memory [mem]. *)
Definition blit (w h : Z) (p mem : pixels) : pixels := fun px py =>
  if (0 <=? px) && (px <? w) && (0 <=? py) && (py <? h) then p px py else mem px py.
(** configCrop0 186-201 and CropConfig::config 37-47: img.copyTo(crop) keeps crop's memory, and writes to it,
    when the size is the same; otherwise crop gets memory of its own. *)
Definition configCrop (junk : pixels) (id w h x y degree : Z) (s : splitter) : bool * splitter :=
  match mfind id (crops s) with
  | None => (false, s)
  | Some k =>
      if (x <? 0) || (y <? 0) || (w <=? 0) || (h <=? 0) || (360 <? degree) || (degree <? -360) then (false, s)
      else let same := (w =? kw k) && (h =? kh k) in
           let t := if same then target k else None in
           (true, mkSp (mset id (mkCrop w h x y t) (crops s))
                       (match t with Some b => setBuf b (blit w h junk (bufs s b)) (bufs s) | None => bufs s end))
  end.
(** specificWriterConfig 267-276, specificWriterDelete 278-289. *)
Definition addCrop (id : Z) (s : splitter) : bool * splitter :=
  if mmem id (crops s) then (false, s) else (true, mkSp (mset id crop0 (crops s)) (bufs s)).
(** VideoSplitter.cpp 278-289. *)
Definition delCrop (id : Z) (s : splitter) : bool * splitter :=
  if mmem id (crops s) then (true, mkSp (mdel id (crops s)) (bufs s)) else (false, s).

(** What happens to one destination: announced width, height and length, or left unconsumed. *)
Inductive cropOut := Cropped (w h len : Z) | Unused.
(** doProcessFrame 120-166. [dsts] are the destinations: writer and buffer. A writer without crop: NULL
    dereference; dims of the picture [W], [H]. *)
Fixpoint split (W H : Z) (p : pixels) (dsts : list (Z * Z)) (s : splitter) : res (list (Z * cropOut) * splitter) :=
  match dsts with
  | [] => Ok ([], s)
  | (id, b) :: r =>
      match mfind id (crops s) with
      | None => Undef
      | Some k =>
          let some := (0 <=? kx k) || (0 <=? ky k) || (0 <? kw k) || (0 <? kh k) in
          if some && negb (intOk (kx k + kw k)) then Undef
          else if negb (some && (kx k + kw k <=? W)) then
            match split W H p r s with Ok (l, s') => Ok ((id, Unused) :: l, s') | Throws => Throws | Undef => Undef end
          else if negb (intOk (ky k + kh k)) then Undef
          else if negb (ky k + kh k <=? H) then
            match split W H p r s with Ok (l, s') => Ok ((id, Unused) :: l, s') | Throws => Throws | Undef => Undef end
          else if (kx k <? 0) || (ky k <? 0) || (kw k <? 0) || (kh k <? 0) then Throws
          else if negb (intOk (kw k * kh k)) then Undef
          else
            let s1 := mkSp (mset id (mkCrop (kw k) (kh k) (kx k) (ky k) (Some b)) (crops s))
                           (setBuf b (blit (kw k) (kh k) (fun px py => p (kx k + px) (ky k + py)) (bufs s b)) (bufs s)) in
            match split W H p r s1 with
            | Ok (l, s') => Ok ((id, Cropped (kw k) (kh k) (kw k * kh k)) :: l, s') | Throws => Throws | Undef => Undef end
      end
  end.
(** Model's own: a history of calls of the splitter. *)
Inductive spEvent := SAdd (id : Z) | SDel (id : Z) | SConf (id w h x y degree : Z) | SFrame (W H : Z) (p : pixels) (dsts : list (Z * Z)).
(** Model's own: a history of calls of the splitter. *)
Definition spStep (junk : pixels) (e : spEvent) (s : splitter) : splitter :=
  match e with
  | SAdd id => snd (addCrop id s) | SDel id => snd (delCrop id s)
  | SConf id w h x y d => snd (configCrop junk id w h x y d s)
  | SFrame W H p dsts => match split W H p dsts s with Ok (_, s') => s' | _ => s end
  end.
(** Model's own: a history of calls of the splitter. *)
Definition spRun (junk : pixels) (es : list spEvent) (s : splitter) : splitter := fold_left (fun s e => spStep junk e s) es s.
(** VideoSplitter.cpp 53-61, 102-115. *)
Definition sp0 (bufs0 : Z -> pixels) : splitter := mkSp [] bufs0.
