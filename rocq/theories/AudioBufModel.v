(** Model of AudioCircularBuffer (src/AudioCircularBuffer.cpp).

    Bytes are values of an abstract type [B]. [rear], [front] (size_t) and
    [elements] (unsigned) are [nat]; times are [Z] microseconds. The 32-bit
    truncations of the sample index (80, 112) and of the padding (124) are
    written out; products such as samples*bytesPerSample are taken not to
    overflow. orgTime (89, 145) is in AorModel.v; isFull (329-332) is not modelled. *)
From Verif Require Import Base AudioBufIface.

Inductive res (A : Type) :=
| Ok (a : A)
| OutOfBounds          (* memcpy outside a buffer *)
| DivByZero.           (* x % 0 *)
Arguments Ok {A}. Arguments OutOfBounds {A}. Arguments DivByZero {A}.

Section AudioBuf.
Context {B : Type}.
Variable zero : B.

(** channelMaxLength, 202. *)
Definition chLen (c : acfg) : nat := maxs c * (rate c / 1000) * bps c.
(** tsDeviationThreshold, 216 (MAX_DEVIATION_SAMPLES = 64, 28). *)
Definition thr (c : acfg) : Z := (64 * 1000000 / Z.of_nat (rate c))%Z.
(** The capacity setup() gives the frames: AudioFrame::getMaxSamples (AudioFrame.cpp
    29-32, MAX_FRAME_TIME 100) times bytes per sample. *)
Definition setupCap (r b : nat) : nat := b * (100 * r / 1000).

Record abuf := mkAb {
  adata : list (list B);       (* data[i], one array per channel *)
  arear : nat;
  afront : nat;
  aelem : nat;
  async : option Z;            (* syncTimestamp if synchronized *)
  afill : bool;                (* fillNewFrame *)
  aout  : Z * list (list B);   (* outputFrame: time stamp, channel buffers *)
  alost : nat
}.

(** memcpy of [n] bytes from [src]+[so] to [dst]+[d]. *)
Definition memcpy (dst : list B) (d : nat) (src : list B) (so n : nat) : option (list B) :=
  if (so + n <=? length src) && (d + n <=? length dst)
  then Some (firstn d dst ++ firstn n (skipn so src) ++ skipn (d + n) dst)
  else None.

(** Model's own. *)
Fixpoint map2o {X Y : Type} (f : X -> Y -> option X) (xs : list X) (ys : list Y) : option (list X) :=
  match xs, ys with
  | [], _ => Some []
  | x :: xt, y :: yt =>
      match f x y, map2o f xt yt with
      | Some z, Some zs => Some (z :: zs)
      | _, _ => None
      end
  | _ :: _, [] => None
  end.

(** Model's own. *)
Definition set_data s d := mkAb d (arear s) (afront s) (aelem s) (async s) (afill s) (aout s) (alost s).

(** pushBack, 223-254. *)
Definition pushBack (c : acfg) (s : abuf) (buf : list (list B)) (samples : nat) : res (abuf * bool) :=
  let L := chLen c in
  let bytes := samples * bps c in
  if L - aelem s <? bytes then Ok (s, false)
  else if L =? 0 then DivByZero
  else
    let rm := arear s mod L in
    let copied :=
      if rm + bytes <? L
      then map2o (fun d b => memcpy d rm b 0 bytes) (adata s) buf
      else let first := L - rm in
           map2o (fun d b => match memcpy d rm b 0 first with
                             | Some d' => memcpy d' 0 b first (bytes - first)
                             | None => None
                             end) (adata s) buf in
    match copied with
    | Some d => Ok (mkAb d (arear s + bytes) (afront s) (aelem s + bytes) (async s) (afill s) (aout s) (alost s), true)
    | None => OutOfBounds
    end.

(** popFront and fillOutputBuffers, 256-292, into the output frame's buffers. *)
Definition popFront (c : acfg) (s : abuf) (out : list (list B)) (samples : nat) : res (abuf * option (list (list B))) :=
  let L := chLen c in
  let bytes := samples * bps c in
  if aelem s <? bytes then Ok (s, None)
  else if L =? 0 then DivByZero
  else
    let fm := afront s mod L in
    let copied :=
      if fm + bytes <? L
      then map2o (fun o d => memcpy o 0 d fm bytes) out (adata s)
      else let first := L - fm in
           map2o (fun o d => match memcpy o 0 d fm first with
                             | Some o' => memcpy o' first d 0 (bytes - first)
                             | None => None
                             end) out (adata s) in
    match copied with
    | Some o => Ok (mkAb (adata s) (arear s) (afront s + bytes) (aelem s - bytes) (async s) (afill s) (aout s) (alost s), Some o)
    | None => OutOfBounds
    end.

(** (unsigned)(pos/bytesPerSample) * 1000000 / sampleRate, as on 80-81 and 112-113. *)
Definition posTime (c : acfg) (pos : nat) : Z :=
  (((Z.of_nat pos / Z.of_nat (bps c)) mod 2 ^ 32) * 1000000 / Z.of_nat (rate c))%Z.

(** getFront, 69-93. The frame returned is the output frame. *)
Definition getFront (c : acfg) (s : abuf) : res (abuf * option (Z * list (list B))) :=
  if negb (afill s) then Ok (s, Some (aout s))
  else
    let ts := (posTime c (afront s) + match async s with Some t => t | None => 0 end)%Z in
    match popFront c s (snd (aout s)) (osz c) with
    | Ok (s1, None) => Ok (mkAb (adata s) (arear s) (afront s) (aelem s) (async s) true (ts, snd (aout s)) (alost s), None)
    | Ok (s1, Some o) =>
        Ok (mkAb (adata s1) (arear s1) (afront s1) (aelem s1) (async s1) false (ts, o) (alost s1), Some (ts, o))
    | OutOfBounds => OutOfBounds
    | DivByZero => DivByZero
    end.

(** removeFrame, 154-158. *)
Definition removeFrame (c : acfg) (s : abuf) : abuf * Z :=
  (mkAb (adata s) (arear s) (afront s) (aelem s) (async s) true (aout s) (alost s), wid c).

(** flush (FrameQueue.hh 114-118) and doFlush, 160-167. *)
Definition flush (s : abuf) : abuf :=
  mkAb (adata s) 0 0 0 None (afill s) (aout s) (alost s + 1).

(** addFrame, 96-152. [ts], [samples] and [buf] are those of inputFrame. *)
Definition addFrame (c : acfg) (s : abuf) (ts : Z) (samples : nat) (buf : list (list B)) : res (abuf * list Z) :=
  let sy := match async s with Some t => t | None => ts end in
  let s := mkAb (adata s) (arear s) (afront s) (aelem s) (Some sy) (afill s) (aout s) (alost s) in
  let dev := (ts - (posTime c (arear s) + sy))%Z in
  if (dev <? - thr c)%Z then Ok (s, [])
  else
    let push (s : abuf) :=
      match pushBack c s buf samples with
      | Ok (s', true) => Ok (s', rids c)
      | Ok (s', false) => Ok (s', [])
      | OutOfBounds => OutOfBounds
      | DivByZero => DivByZero
      end in
    if (thr c <? dev)%Z then
      let padding := ((dev * Z.of_nat (rate c) / 1000000) mod 2 ^ 32)%Z in
      if (Z.of_nat (maxs c) <=? padding)%Z then Ok (flush s, [])
      else
        match pushBack c s (repeat (repeat zero (cap c)) (length (adata s))) (Z.to_nat padding) with
        | Ok (s', true) => push s'
        | Ok (s', false) => Ok (s', [])
        | OutOfBounds => OutOfBounds
        | DivByZero => DivByZero
        end
    else push s.

(** createNew and setup for [ch] channels, 30-49, 180-220. *)
Definition newBuf (c : acfg) (ch : nat) : abuf :=
  mkAb (repeat (repeat zero (chLen c)) ch) 0 0 0 None true (0%Z, repeat (repeat zero (cap c)) ch) 0.

(** Model's own: a history of requests. *)
Definition astep (c : acfg) (s : abuf) (o : aop B) : res (abuf * aans B) :=
  match o with
  | Put ts n buf => match addFrame c s ts n buf with
                    | Ok (s', ids) => Ok (s', Told ids)
                    | OutOfBounds => OutOfBounds | DivByZero => DivByZero end
  | Fetch => match getFront c s with
             | Ok (s', None) => Ok (s', Out None)
             | Ok (s', Some (t, o)) => Ok (s', Out (Some (t, map (firstn (osz c * bps c)) o)))
             | OutOfBounds => OutOfBounds | DivByZero => DivByZero end
  | Next => let (s', w) := removeFrame c s in Ok (s', Freed w)
  end.

(** Model's own: a history of requests. *)
Fixpoint arun (c : acfg) (s : abuf) (os : list (aop B)) : res (abuf * list (aans B)) :=
  match os with
  | [] => Ok (s, [])
  | o :: t => match astep c s o with
              | Ok (s1, x) => match arun c s1 t with
                              | Ok (s2, xs) => Ok (s2, x :: xs)
                              | OutOfBounds => OutOfBounds | DivByZero => DivByZero
                              end
              | OutOfBounds => OutOfBounds | DivByZero => DivByZero
              end
  end.
End AudioBuf.
Arguments abuf : clear implicits.
