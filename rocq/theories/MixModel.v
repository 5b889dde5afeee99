(** Model of the audio mixer, src/modules/audioMixer/AudioMixer.cpp.

    Samples and gains are finite single precision floats (F32). The input queues always give FLTP frames
    (allocQueue 59-63), so a frame is its floats. Simplified: the compiler does not contract a product and
    a sum into one operation. The sample rate is a constant of the class (48000); it is a parameter here. *)
From Verif Require Import Base ZMap F32.
Local Open Scope Z_scope.

(** Model's own: unsigned int arithmetic. *)
Definition w32 (z : Z) : Z := z mod 4294967296.
(** AudioFrame::getDefaultSamples, AudioFrame.cpp 34-37. *)
Definition defaultSamples (rate : Z) : Z := 20000 * rate / 1000000.

(** COMPRESSION_THRESHOLD and DEFAULT_MASTER_GAIN as floats, AudioMixer.hh 30-31; the constants of
    mixSample, AudioMixer.cpp 173-175. *)
Definition th : Z := fl (6 * one) 10.
(** AudioMixer.cpp 173-175. *)
Definition coef : Z := fdiv (fsub one th) (fsub (2 * one) th).
(** AudioMixer.cpp 173-175. *)
Definition offs : Z := fdiv th (fsub (2 * one) th).

(** AudioMixer; [mbuf] channel index is mixBuffers[channel][index]. *)
Record mixer := mkMix { rate : Z; chans : Z; front : Z; rear : Z; syncTs : Z; master : Z; gains : zmap Z; mbuf : Z -> Z -> Z }.
Definition ifs (m : mixer) : Z := defaultSamples (rate m).          (* inputFrameSamples, outputSamples *)
Definition maxS (m : mixer) : Z := 5 * ifs m.                       (* mixBufferMaxSamples *)
Definition thresh (m : mixer) : Z := 3 * ifs m.                     (* mixingThreshold *)
(** Constructor 33-50. *)
Definition newMixer (r c : Z) : mixer := mkMix r c 0 0 (-1) th [] (fun _ _ => 0).

(** mixSample 168-177 on the value of a cell; [v] is sample*gain*masterGain. *)
Definition mixValue (b v : Z) : Z :=
  let x := fadd b v in
  if th <? x then fadd (fmul coef x) offs
  else if x <? - th then fsub (fmul coef x) offs
  else x.

(** A frame: presentation time, number of samples, samples by channel and index. *)
Record frame := mkF { fpts : Z; fn : Z; fsample : Z -> Z -> Z }.

(** Model's own: a cell of mixBuff is written. *)
Definition cell (b : Z -> Z) (k v : Z) : Z -> Z := fun i => if i =? k then v else b i.
(** The inner loop of pushToBuffer, 148-158: [k] samples left, next sample [j], next cell [idx]. *)
Fixpoint mixLoop (k : nat) (j idx sz : Z) (vals : Z -> Z) (b : Z -> Z) : Z -> Z :=
  match k with
  | O => b
  | S k' => mixLoop k' (j + 1) ((idx + 1) mod sz) sz vals (cell b idx (mixValue (b idx) (vals j)))
  end.

(** Model's own: how pushToBuffer ends. *)
Inductive outcome := Mixed | NoSpace | Past | Resynced.
(** pushToBuffer 101-166; [resync]ing does not clear the buffers. *)
Definition mixAt (id pos : Z) (f : frame) (m : mixer) : mixer :=
  let g := match mfind id (gains m) with Some g => g | None => 0 end in
  let gs := match mfind id (gains m) with Some _ => gains m | None => if 0 <? fn f then mset id 0 (gains m) else gains m end in
  let vals c j := fmul (fmul (fsample f c j) g) (master m) in
  mkMix (rate m) (chans m) (front m) (if rear m <? w32 (pos + fn f) then w32 (pos + fn f) else rear m) (syncTs m) (master m) gs
        (fun c => if (0 <=? c) && (c <? chans m) then mixLoop (Z.to_nat (fn f)) 0 (pos mod maxS m) (maxS m) (vals c) (mbuf m c) else mbuf m c).
(** AudioMixer.cpp 101-166, where syncTs, front and rear are set. *)
Definition withSync (t : Z) (m : mixer) : mixer := mkMix (rate m) (chans m) (front m) (rear m) t (master m) (gains m) (mbuf m).
(** AudioMixer.cpp 101-166, where syncTs, front and rear are set. *)
Definition resync (t : Z) (m : mixer) : mixer := mkMix (rate m) (chans m) 0 0 t (master m) (gains m) (mbuf m).
(** The position of a time: signed 64-bit arithmetic that truncates, then unsigned int. *)
Definition posOf (r origin t : Z) : Z := Z.quot ((t - origin) * r) 1000000.
(** AudioMixer.cpp 101-166. *)
Definition push (id : Z) (f : frame) (m : mixer) : outcome * mixer :=
  if w32 (maxS m - w32 (rear m - front m)) <? fn f then (NoSpace, m)
  else
    let m := if syncTs m <? 0 then withSync (fpts f) m else m in
    let pos := w32 (posOf (rate m) (syncTs m) (fpts f)) in
    if pos <? front m then (Past, m)
    else if w32 (front m + maxS m - fn f) <? pos then (Resynced, mixAt id 0 f (resync (fpts f) m))
    else (Mixed, mixAt id pos f m).

(** extractMixedFrame 179-226. *)
Fixpoint readLoop (k : nat) (j pos sz : Z) (b : Z -> Z) : list Z * (Z -> Z) :=
  match k with
  | O => ([], b)
  | S k' => let i := (pos + j) mod sz in
            let '(l, b') := readLoop k' (j + 1) pos sz (cell b i 0) in (b i :: l, b')
  end.
(** Model's own: what is seen of a frame delivered. *)
Record outFrame := mkOut { ots : Z; osamples : list (list Z) }.
(** AudioMixer.cpp 179-226. *)
Definition extract (m : mixer) : option outFrame * mixer :=
  if w32 (rear m - front m) <? thresh m then (None, m)
  else
    let rd c := readLoop (Z.to_nat (ifs m)) 0 (front m mod maxS m) (maxS m) (mbuf m c) in
    (Some (mkOut (front m * 1000000 / rate m + syncTs m) (map (fun c => fst (rd (Z.of_nat c))) (seq 0 (Z.to_nat (chans m))))),
     mkMix (rate m) (chans m) (w32 (front m + ifs m)) (rear m) (syncTs m) (master m) (gains m)
           (fun c => if (0 <=? c) && (c <? chans m) then snd (rd c) else mbuf m c)).

(** setChannelGain 294-309. *)
Definition setGain (id v : Z) (m : mixer) : mixer :=
  if mmem id (gains m)
  then mkMix (rate m) (chans m) (front m) (rear m) (syncTs m) (master m) (mset id (if one <? v then one else if v <? 0 then 0 else v) (gains m)) (mbuf m)
  else m.
(** soloChannelEvent 347-372. *)
Definition solo (id : Z) (m : mixer) : mixer :=
  if mmem id (gains m) then fold_left (fun m k => if k =? id then m else setGain k 0 m) (mkeys (gains m)) (setGain id one m) else m.
(** changeMasterVolumeEvent 374-390. *)
Definition setMaster (v : Z) (m : mixer) : mixer := mkMix (rate m) (chans m) (front m) (rear m) (syncTs m) v (gains m) (mbuf m).
(** specificReaderConfig 267-283, specificReaderDelete 285-292. *)
Definition putGains (g : zmap Z) (m : mixer) : mixer := mkMix (rate m) (chans m) (front m) (rear m) (syncTs m) (master m) g (mbuf m).

(** *** Histories. doProcessFrame 65-99 pushes the new frames of its inputs and extracts once. *)
Inductive event :=
| EPush (id : Z) (f : frame)
| EExtract
| EGain (id v : Z) | ESolo (id : Z) | EMaster (v : Z)    (* muting is a gain of 0 *)
| EAdd (id : Z) | EDel (id : Z).
(** Model's own: a history of the mixer. *)
Inductive result := RPush (o : outcome) | ROut (o : option outFrame) | RNone.
(** Model's own: a history of the mixer. *)
Definition step (e : event) (m : mixer) : result * mixer :=
  match e with
  | EPush id f => let '(o, m) := push id f m in (RPush o, m)
  | EExtract => let '(o, m) := extract m in (ROut o, m)
  | EGain id v => (RNone, setGain id v m)
  | ESolo id => (RNone, solo id m)
  | EMaster v => (RNone, setMaster v m)
  | EAdd id => (RNone, putGains (mset id one (gains m)) m)
  | EDel id => (RNone, putGains (mdel id (gains m)) m)
  end.
(** Model's own: a history of the mixer. *)
Fixpoint run (es : list event) (m : mixer) : list result * mixer :=
  match es with
  | [] => ([], m)
  | e :: r => let '(x, m) := step e m in let '(xs, m) := run r m in (x :: xs, m)
  end.

(** *** Sample conversions, 228-269: S16P to float and back (16-bit samples of the other modules). *)
Definition s16_to_float (b0 b1 : Z) : Z :=
  let v := b0 + 256 * b1 in let s := if 32768 <=? v then v - 65536 else v in fl (s * one) 32768.
(** The product is a double (exact); converting it to short truncates, and is undefined out of range. *)
Definition float_to_s16 (x : Z) : option (Z * Z) :=
  let v := Z.quot (x * 32768) one in
  if (-32768 <=? v) && (v <=? 32767) then Some (v mod 256, (v / 256) mod 256) else None.
