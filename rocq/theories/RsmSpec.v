(* What a user of the resampler relies on. *)
From Coq Require Import ZArith List Bool.
From Verif Require Import NamesModel RsmModel.
Import ListNotations.
Local Open Scope list_scope.
Local Open Scope Z_scope.

(* A request is taken unless its pixel format is out of range. *)
Definition taken (q : request) : bool :=
  match qFmt q with None => true | Some z => (-1 <=? z) && (z <=? 5) end.

(* The value last asked for in a request that was taken. *)
Definition newest {A} (d : A) (get : request -> option A) (ops : list op) : A :=
  fold_left (fun a o => match o with
                        | Configure q => if taken q then match get q with Some x => x | None => a end else a
                        | Frame _ => a
                        end) ops d.

(* The format numbers of the API. *)
Definition format (z : Z) : PixType :=
  match z with 0 => RGB24 | 1 => RGB32 | 2 => YUV420P | 3 => YUV422P | 4 => YUV444P | 5 => YUYV422 | 6 => YUVJ420P | _ => P_NONE end.

(* The picture to be made of [f]: the size asked for last, or that of the
   picture where none or zero was asked for, in the format asked for last. *)
Definition wanted (o0 : PixType) (ops : list op) (f : pic) : pic :=
  let w := newest 0 qW ops in
  let h := newest 0 qH ops in
  mkPic (if w =? 0 then width f else w) (if h =? 0 then height f else h)
        (newest o0 (fun q => option_map format (qFmt q)) ops).

(* The time between pictures, in microseconds, for the rate last asked for. *)
Definition wantedTime (ops : list op) : Z :=
  let fps := newest 0 qFps ops in if fps <=? 0 then 0 else 1000000 / fps.

(* The bytes a frame of the queue of raw video holds: a full HD picture of
   three bytes a pixel. *)
Definition room : Z := 6220800.
