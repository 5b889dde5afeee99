(** The capture times an audio buffer gives to its frames (src/AudioCircularBuffer.cpp 69-93 and 96-152), on top of
    AudioBufModel. Times are microseconds. *)
From Verif Require Import Base AudioBufIface AudioBufModel.

Section Aor.
Context {B : Type}.
Variable zero : B.

(** The buffer, orgTime (AudioCircularBuffer.hh 123) and the capture time of outputFrame (Frame.hh). A time_point is
    made as 0. *)
Record obuf := mkOb { ob : abuf B; oorg : Z; oout : Z }.
(** AudioCircularBuffer.hh 123. *)
Definition newOb (c : acfg) (ch : nat) : obuf := mkOb (newBuf zero c ch) 0 0.

(** AudioCircularBuffer.cpp 89: orgTime - elements*1000000/(bytesPerSample*sampleRate). *)
Definition outOrigin (c : acfg) (org : Z) (elements : nat) : Z :=
  (org - Z.of_nat elements * 1000000 / (Z.of_nat (bps c) * Z.of_nat (rate c)))%Z.

(** One request, with the capture time [g] of the frame put in. The assignment of orgTime, AudioCircularBuffer.cpp 145,
    is reached when the frame is taken; the readers are told then (147-149) and only then, and a queue has a reader. *)
Definition ostep (c : acfg) (s : obuf) (o : aop B) (g : Z) : res (obuf * (aans B * Z)) :=
  match astep zero c (ob s) o with
  | Ok (b, x) =>
      let s' := match o, x with
                | Put _ _ _, Told (_ :: _) => mkOb b g (oout s)
                | Fetch, Out (Some _) => if afill (ob s) then mkOb b (oorg s) (outOrigin c (oorg s) (aelem b)) else mkOb b (oorg s) (oout s)
                | _, _ => mkOb b (oorg s) (oout s)
                end in
      Ok (s', (x, oout s'))
  | OutOfBounds => OutOfBounds
  | DivByZero => DivByZero
  end.
(** Model's own: a history of requests. *)
Fixpoint orun (c : acfg) (s : obuf) (os : list (aop B * Z)) : res (obuf * list (aans B * Z)) :=
  match os with
  | [] => Ok (s, [])
  | (o, g) :: t => match ostep c s o g with
                   | Ok (s1, x) => match orun c s1 t with
                                   | Ok (s2, xs) => Ok (s2, x :: xs)
                                   | OutOfBounds => OutOfBounds | DivByZero => DivByZero
                                   end
                   | OutOfBounds => OutOfBounds | DivByZero => DivByZero
                   end
  end.
End Aor.
Arguments obuf : clear implicits.
