(** Property theorems C07, C08: the audio circular buffer. *)
From Verif Require Import Base AudioBufIface AudioBufModel AudioBufSpec AudioBufProofs.

(** C07. For frames that arrive when the previous ones end (within the tolerance),
    of whatever sizes, and any interleaving of output requests: per channel the
    accepted bytes are the delivered bytes followed by the bytes still stored, and
    no access leaves a buffer. *)
Theorem audio_reframing_loses_nothing :
  forall (B : Type) (zero : B) (ch : nat) (c : acfg) (os : list (aop B)),
  sane c -> rids c <> [] -> all_well_formed ch c os -> (Z.of_nat (count_in os) < 2 ^ 32)%Z ->
  on_time zero ch c (tl_init ch) os ->
  exists s xs, arun zero c (newBuf zero c ch) os = Ok (s, xs) /\
    forall k, k < ch -> exists rest, accepted c k (combine os xs) = delivered k false (combine os xs) ++ rest
                 /\ length rest = aelem s /\ aelem s <= room c.
Proof. exact (@reframing). Qed.
Print Assumptions audio_reframing_loses_nothing.

(** A 1 kHz one-byte stereo buffer of 8 bytes, 3-byte output frames: frames of
    2, 5 and 4 samples; the second one does not fit in one piece and wraps, the
    third is refused the first time. *)
Definition ex_cfg : acfg := mkCfg 1000 1 8 100 3 5 [6%Z].
Definition ex_ops : list (aop nat) :=
  [Put 0 2 [[1;2];[11;12]]; Put 2000 5 [[3;4;5;6;7];[13;14;15;16;17]]; Fetch; Fetch; Next;
   Put 7000 5 [[8;9;10;11;12];[18;19;20;21;22]]; Fetch; Next; Put 7000 4 [[8;9;10;11];[18;19;20;21]]; Fetch; Next; Fetch].

Example audio_reframing_ex :
  sane ex_cfg /\ rids ex_cfg <> [] /\ all_well_formed 2 ex_cfg ex_ops /\
  on_time 0 2 ex_cfg (tl_init 2) ex_ops /\
  exists s, arun 0 ex_cfg (newBuf 0 ex_cfg 2) ex_ops = Ok (s,
    [Told [6%Z]; Told [6%Z]; Out (Some (0%Z, [[1;2;3];[11;12;13]])); Out (Some (0%Z, [[1;2;3];[11;12;13]]));
     Freed 5; Told []; Out (Some (3000%Z, [[4;5;6];[14;15;16]])); Freed 5; Told [6%Z];
     Out (Some (6000%Z, [[7;8;9];[17;18;19]])); Freed 5; Out None]).
Proof.
  split; [unfold sane, ex_cfg; cbn; lia|]. split; [discriminate|].
  split; [repeat constructor|]. split; [|eexists; vm_compute; reflexivity].
  vm_compute. repeat split; discriminate.
Qed.

(** C08. For frames with arbitrary time stamps the buffer answers exactly like the
    time line: on-time frames appended as they are, late ones discarded, early ones
    preceded by the silence of the gap, discontinuities restart the line, and every
    delivered frame carries the time of its first sample. (Covered: well-formed
    frames, less than 2^32 samples since synchronisation, gaps whose silence fits
    the silence buffer.) *)
Theorem audio_buffer_follows_the_timeline_partial :
  forall (B : Type) (zero : B) (ch : nat) (c : acfg) (os : list (aop B)) t xs,
  sane c -> tl_run zero ch c (tl_init ch) os = Some (t, xs) ->
  exists s, arun zero c (newBuf zero c ch) os = Ok (s, xs).
Proof. exact (@timeline_refines). Qed.
Print Assumptions audio_buffer_follows_the_timeline_partial.

(** 2 samples, then a frame 80 ms early (silence), one 100 ms late (discarded), and a
    jump of two seconds (restart). *)
Example audio_timeline_ex :
  let c := mkCfg 1000 1 200 100 41 5 [6%Z] in
  exists t, tl_run 0 1 c (tl_init 1)
    [Put 500 2 [[1;2]]; Put 82500 1 [[3]]; Put 0 1 [[4]]; Fetch; Next; Fetch; Next;
     Put 2000000 1 [[5]]; Put 2000000 41 [repeat 7 41]; Fetch]
   = Some (t, [Told [6%Z]; Told [6%Z]; Told []; Out (Some (500%Z, [1 :: 2 :: repeat 0 39])); Freed 5;
       Out (Some (41500%Z, [repeat 0 41])); Freed 5; Told []; Told [6%Z]; Out (Some (2000000%Z, [repeat 7 41]))]).
Proof. cbn zeta. eexists. vm_compute. reflexivity. Qed.

(** C08 fails for gaps longer than the 100 ms silence buffer that are still shorter
    than the discontinuity limit: the padding copy reads past the silence buffer. *)
Theorem audio_long_gap_refuted :
  forall (B : Type) (zero : B) (ch : nat) (c : acfg) (ts : Z) (n : nat) (bufs0 bufs : list (list B)),
  sane c -> length bufs0 = S ch ->
  let g := (ts * Z.of_nat (rate c) / 1000000)%Z in
  (tolerance c < ts)%Z -> cap c < Z.to_nat g * bps c -> (g < Z.of_nat (maxs c) < 2 ^ 32)%Z ->
  arun zero c (newBuf zero c (S ch)) [Put 0 0 bufs0; Put ts n bufs] = OutOfBounds.
Proof. exact (@long_gap). Qed.
Print Assumptions audio_long_gap_refuted.

(** The default configuration: 48 kHz, 2 bytes, 32768 (DEFAULT_BUFFER_SIZE), 100 ms
    frames; a frame 200 ms early is enough. The numbers are kept as [N]. *)
Example audio_long_gap_ex :
  let c := mkCfg (N.to_nat 48000) 2 (N.to_nat 32768) (setupCap (N.to_nat 48000) 2) (N.to_nat 960) 5 [6%Z] in
  sane c /\ (tolerance c < 200000)%Z /\
  cap c < Z.to_nat (200000 * Z.of_nat (rate c) / 1000000) * bps c /\
  (200000 * Z.of_nat (rate c) / 1000000 < Z.of_nat (maxs c) < 2 ^ 32)%Z.
Proof.
  cbn zeta. unfold sane, tolerance, setupCap. cbn [rate bps maxs cap osz].
  rewrite !N_nat_Z.
  change (200000 * Z.of_N 48000 / 1000000)%Z with 9600%Z.
  change (64 * 1000000 / Z.of_N 48000)%Z with 1333%Z.
  assert (H : 100 * N.to_nat 48000 / 1000 = N.to_nat 4800).
  { replace (100 * N.to_nat 48000) with (N.to_nat 4800 * 1000) by lia. apply Nat.div_mul. lia. }
  rewrite H. lia.
Qed.

(** C07/C08: a frame that is refused for lack of space may still leave the silence of
    its gap behind, so "refused frames change nothing" fails. *)
Theorem refused_frame_leaves_silence_refuted :
  exists (c : acfg) (os : list (aop nat)) s xs, sane c /\
    arun 0 c (newBuf 0 c 1) os = Ok (s, xs) /\
    xs = [Told [6%Z]; Told []; Out (Some (0%Z, [repeat 1 60])); Freed 5; Out (Some (60000%Z, [repeat 0 60]))].
Proof.
  exists (mkCfg 1000 1 200 100 60 5 [6%Z]),
    [Put 0 60 [repeat 1 60]; Put 160000 60 [repeat 2 60]; Fetch; Next; Fetch].
  do 2 eexists. split; [unfold sane; cbn; lia|]. split; [vm_compute; reflexivity|reflexivity].
Qed.
Print Assumptions refused_frame_leaves_silence_refuted.

(** A buffer for less than 1000 Hz has no storage at all: the first frame divides by
    zero (empty) or is refused. *)
Theorem low_rate_buffer_refuted :
  exists (c : acfg), rate c = 800 /\ arun 0 c (newBuf 0 c 1) [Put 0 0 [[]]] = DivByZero.
Proof. exists (mkCfg 800 1 200 80 16 5 [6%Z]). split; [reflexivity|vm_compute; reflexivity]. Qed.
Print Assumptions low_rate_buffer_refuted.
