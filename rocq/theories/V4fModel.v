(* The camera: frames and their timing.

   Modelled:
     src/modules/V4LCapture/V4LCapture.cpp  lines 41-54 (constructor), 123-174
        (doProcessFrame), 185-210 (getFrame), 212-236 (readFrame), 466-497
        (startCapturing, the buffers given to the driver), 518-531
        (getAvgFrameDuration)
     src/modules/V4LCapture/V4LCapture.hh  lines 36-37, 97-103

   Simplifications.
   - Clock readings are in microseconds, the unit of frameDuration.
   - The system is an oracle: what select, DQBUF and QBUF answer, what is in
     the buffer. The driver gives out only buffers it was given.
   - The frame to fill is given with its room in bytes and its old contents. *)
From Coq Require Import ZArith List Bool Arith.
From Verif Require Import NamesModel V4lModel.
Import ListNotations.
Local Open Scope list_scope.
Local Open Scope Z_scope.

(* Model's own: int arithmetic. *)
Definition int32 (z : Z) : Z := (z + 2 ^ 31) mod 2 ^ 32 - 2 ^ 31.

(* frameCount, durationCount, frameDuration *)
Record meter := mkM { cnt : Z; sum : Z; mdur : Z }.

(* V4LCapture.cpp 518-531: the average, FRAME_AVG_COUNT being 128
   (V4LCapture.hh 37) *)
Definition getAvg (m : meter) (d : Z) : meter * Z :=
  if cnt m <=? 128 then
    (mkM (cnt m + 1) (if 0 <? cnt m then sum m + d else sum m) (mdur m), int32 (mdur m))
  else
    let s := sum m - Z.quot (sum m) 128 + d in (mkM (cnt m) s (mdur m), int32 (Z.quot s 128)).
(* V4LCapture.cpp 163-170, TOLERANCE_FACTOR being 64 (V4LCapture.hh 36) *)
Definition tick (m : meter) (d : Z) : meter :=
  let '(m1, avg) := getAvg m d in
  if Z.quot (mdur m) 128 <? Z.abs (mdur m - avg) then mkM (cnt m1) (sum m1) avg else m1.

(* The filter while frames are taken: its camera (with frameDuration in
   [dur]), frameCount, durationCount, wallclock, lastTime, and the numbers of
   the buffers the driver has *)
Record capt := mkC { ccam : cam; ccnt : Z; csum : Z; wall : Z; lastT : Z; queue : list nat }.
(* V4LCapture.cpp 41-54, at time [t]; wallclock starts at 0 *)
Definition capt0 (t : Z) : capt := mkC cam0 0 0 0 t [].
(* Model's own: field access. *)
Definition cdur (s : capt) : Z := dur (ccam s).
(* Model's own: field access. *)
Definition meterOf (s : capt) : meter := mkM (ccnt s) (csum s) (cdur s).

(* V4LCapture.cpp 61-90, 466-497: configuring changes the camera; if it starts
   capturing the driver is given all buffers. The counters stay. *)
Definition reconfigured (s : capt) (c : cam) : capt :=
  mkC c (ccnt s) (csum s) (wall s) (lastT s)
      (match st c with SCapture => seq 0 (List.length (bufs c)) | _ => [] end).

(* The frame to fill *)
Record vframe := mkV { room : Z; bytes : list Z; flen : Z; fsize : Z * Z; fpix : PixType; pts : Z }.

(* Model's own: the answers of select, and how a frame is got. *)
Inductive selected := SelError | SelTimeout | SelReady.
(* One round: three readings of the clock (133, 137, 149), select, DQBUF with
   the buffer it gives and what is in it, QBUF *)
Record round := mkRd { t1 : Z; t2 : Z; t3 : Z; rSel : selected; rDq : option nat; rData : list Z; rQ : bool }.

(* Model's own: the answers of select, and how a frame is got. *)
Inductive got := Overrun | NoFrame (q : list nat) (f : vframe) | Frame (q : list nat) (f : vframe).

(* Model's own: a buffer leaves the driver's queue. *)
Fixpoint without (i : nat) (l : list nat) : list nat :=
  match l with [] => [] | x :: t => if Nat.eqb x i then t else x :: without i t end.

(* V4LCapture.cpp 226-227: bytes copied, a product of unsigned numbers *)
Definition copied (m : pixfmt) : Z := (fh m * fbpl m) mod 2 ^ 32.

(* V4LCapture.cpp 212-236 *)
Definition readFrame (c : cam) (q : list nat) (f : vframe) (r : round) : got :=
  match rDq r with
  | None => NoFrame q f
  | Some i =>
    if existsb (Nat.eqb i) q then
      let n := copied (fmt c) in
      if (Z.of_nat (List.length (rData r)) <? n) || (room f <? n) then Overrun
      else
        let f1 := mkV (room f) (firstn (Z.to_nat n) (rData r) ++ skipn (Z.to_nat n) (bytes f)) (flen f)
                      (fw (fmt c), fh (fmt c)) (opix c) (pts f) in
        if rQ r then Frame (without i q ++ [i]) f1 else NoFrame (without i q) f1
    else NoFrame q f
  end.
(* V4LCapture.cpp 185-210 *)
Definition getFrame (c : cam) (q : list nat) (f : vframe) (r : round) : got :=
  match rSel r with SelReady => readFrame c q f r | _ => NoFrame q f end.

(* What a round gives: the filter, the frame, whether it is handed on, the
   wait *)
Inductive result := Broken | Done (s : capt) (f : vframe) (ok : bool) (ret : Z).

(* V4LCapture.cpp 123-174: the presentation time of a frame. *)
Definition stamp (f : vframe) (t : Z) : vframe := mkV (room f) (bytes f) (flen f) (fsize f) (fpix f) t.

(* V4LCapture.cpp 135-140: wallclock, reset if the round starts far from it *)
Definition nextWall (s : capt) (r : round) : Z :=
  (if Z.quot (cdur s) 64 <? Z.abs (t1 r - wall s) then t2 r else wall s) + cdur s.

(* V4LCapture.cpp 123-174 *)
Definition doProcessFrame (s : capt) (f : vframe) (r : round) : result :=
  match st (ccam s) with
  | SCapture =>
    let w := nextWall s r in
    match getFrame (ccam s) (queue s) f r with
    | Overrun => Broken
    | NoFrame q f1 => Done (mkC (ccam s) (ccnt s) (csum s) w (lastT s) q) (stamp f1 (t3 r)) false (int32 (w - t3 r))
    | Frame q f1 =>
      let m := tick (meterOf s) (t3 r - lastT s) in
      Done (mkC (setDur (ccam s) (mdur m)) (cnt m) (sum m) w (t3 r) q) (stamp f1 (t3 r)) true (int32 (w - t3 r))
    end
  | _ => Done s f false 1000
  end.

(* Rounds one after the other, each with a frame to fill: the filter, and for
   each round the frame handed on, if any, and the wait. None if memory was
   overrun. *)
Fixpoint rounds (s : capt) (l : list (vframe * round)) : option (capt * list (option vframe * Z)) :=
  match l with
  | [] => Some (s, [])
  | (f, r) :: t =>
    match doProcessFrame s f r with
    | Broken => None
    | Done s1 f1 ok ret =>
      match rounds s1 t with
      | None => None
      | Some (s2, o) => Some (s2, (if ok then Some f1 else None, ret) :: o)
      end
    end
  end.
