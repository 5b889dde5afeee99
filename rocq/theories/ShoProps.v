(** C106: the shared memory filter passes the video on. *)
From Coq Require Import Lia ZArith List Bool.
From Verif Require Import Base Bytes ShmModel ShoModel ShoSpec ShoProofs.
Import ListNotations.
Local Open Scope list_scope.
Local Open Scope Z_scope.

(** Whatever happens, unless memory that is not there is used: what has been put into the queue after the filter is what has arrived while both sides were
    connected, every frame once, in order, with the same sequence number, size, format, time and bytes. *)
Theorem C106_passes_on : forall es w, run es world0 = Some w -> Forall2 sameContent (passed w) (arrived es world0).
Proof. intros es w R. destruct (run_passed es world0 w R) as (l & -> & L). exact L. Qed.

(** If the input is connected before the output, and the stream stays what it is: nothing that is not there is used, frames keep their codec too,
    and the queue after the filter is like the one before it: as many frames, of that codec, with room for as much. *)
Theorem C106_connected_in_order_partial : forall es, always inOrder es world0 -> always fromInput es world0 ->
  exists w, run es world0 = Some w /\ passed w = arrived es world0 /\
    forall q o, inq w = Some q -> outq w = Some o -> qMax o = qMax q /\ qCodec o = qCodec q /\ qCap o = qCap q.
Proof.
  intros es A B. destruct (run_safe es world0 inv0 A B) as (w & R & I & P). exists w. split; [exact R|]. split; [exact P|].
  intros q o Q O. destruct (i_out w I q o Q O) as (_ & C1 & C2 & C3). auto.
Qed.

(** The frames the two queues have room for: 2 MB, 512 KB, or a picture of 1920 by 1080 in the format of the stream; no more than that if the bytes of a pixel are together,
    and at most 3 for each otherwise. *)
Theorem C106_room : forall es w q, always inOrder es world0 -> always fromInput es world0 -> run es world0 = Some w -> inq w = Some q ->
  qMax q <= 250 /\ exists d, find (qFrom q) (descs w) = Some d /\ qCodec q = dCodec d /\
    (qCodec q = H264 \/ qCodec q = H265 -> qCap q = 2097152) /\ (qCodec q = VP8 -> qCap q = 524288) /\
    (qCodec q = RAW -> dPix d <> P_NONE /\ 1920 * 1080 * halfBytes (dPix d) <= 2 * qCap q /\
      2 * qCap q <= 1920 * 1080 * match dPix d with RGB24 | RGB32 | YUYV422 => halfBytes (dPix d) | _ => 6 end).
Proof.
  intros es w q A B R Q. destruct (run_safe es world0 inv0 A B) as (w' & R' & I & _). rewrite R in R'. injection R' as <-.
  destruct (i_in w I q Q) as (_ & _ & _ & M & d & D1 & D2 & D3). split; [exact M|]. exists d. split; [exact D1|]. split; [exact D2|]. rewrite D2. unfold setup in D3.
  destruct (dCodec d); try discriminate D3; try (injection D3 as <-); repeat split; intros; try lia; try discriminate; try (destruct H; discriminate).
  - intros E. rewrite E in D3. discriminate.
  - destruct (dPix d); try discriminate D3; injection D3 as <-; unfold rawRoom, halfBytes; lia.
  - destruct (dPix d); try discriminate D3; injection D3 as <-; unfold rawRoom, halfBytes; lia.
Qed.

(** A description of an H.264 stream, one of raw video in 2 bytes a pixel and one of an audio stream: Opus, which has the number that VP8 has (Types.hh 62, 72). *)
Definition dH : desc := mkD true H264 P_NONE.
Definition dY : desc := mkD true RAW YUYV422.
Definition dA : desc := mkD false VP8 P_NONE.
Definition f1 : vframe := mkF H264 5 1280 720 P_NONE 40000 [0; 0; 0; 1; 101; 7].
Definition hist : list ev := [ENew 0 dH; EIn 0 100; EOut; EFrame (Some f1); EFrame (Some f1); EOutOff; EFrame (Some f1); EInOff; EFree 0; ENew 1 dY; EIn 1 10; EOut].
Example C106_case : always inOrder hist world0 /\ always fromInput hist world0 /\ (exists w, run hist world0 = Some w /\ passed w = [f1; f1] /\ inq w <> None /\ outq w <> None).
Proof.
  split; [|split]; unfold hist.
  - repeat (cbn [always inOrder]; split; [try exact Logic.I|intros ? E; vm_compute in E; injection E as <-]); cbn; try exact Logic.I; try (eexists; reflexivity); try (split; [reflexivity|intros d H; injection H as <-; reflexivity]).
  - repeat (cbn [always]; split; [|intros ? E; vm_compute in E; injection E as <-]); try exact Logic.I; vm_compute; repeat split; discriminate.
  - eexists. split; [vm_compute; reflexivity|]. repeat split; discriminate.
Qed.

(** Connecting the output first reads a description that is not there. *)
Theorem C106_output_first_refuted : forall es, (forall i n, ~ In (EIn i n) es) -> (forall w, run es world0 = Some w -> outq w = None -> step EOut w = None).
Proof.
  assert (X : forall es w, (forall i n, ~ In (EIn i n) es) -> info w = None -> forall w', run es w = Some w' -> info w' = None).
  { induction es as [|e es IH]; intros w N I w' R; cbn [run] in R; [injection R as <-; exact I|]. destruct (step e w) as [w1|] eqn:S; [|discriminate].
    apply (IH w1) with (w' := w'); [intros i n J; apply (N i n); right; exact J| |exact R]. clear R IH.
    destruct e as [i d|i d|i|i n| | | |f]; cbn [step] in S; try (injection S as <-); try exact I.
    - destruct (find i (descs w)); exact I.
    - destruct (find i (descs w)); exact I.
    - exfalso. apply (N i n). left. reflexivity.
    - unfold connectOut in S. rewrite I in S. destruct (outq w); [injection S as <-; exact I|discriminate].
    - unfold process in S. destruct (inq w), (outq w); try (injection S as <-; exact I). destruct f; [|discriminate]. destruct (copyFrame q0 v); [|discriminate]. injection S as <-. exact I. }
  intros es N w R O. cbn [step]. unfold connectOut. rewrite O, (X es world0 N eq_refl w R). reflexivity.
Qed.
Example C106_output_first_case : step EOut world0 = None.
Proof. exact (C106_output_first_refuted [] (fun _ _ H => H) world0 eq_refl eq_refl). Qed.

(** Connecting the output after the filter before this one was destroyed reads its freed description. *)
Theorem C106_origin_gone_refuted : forall i d n q, createNew i d n = Some q -> dVideo d = true ->
  exists w, run [ENew i d; EIn i n; EOut; EOutOff; EInOff; EFree i] world0 = Some w /\ step EOut w = None.
Proof.
  intros i d n q C V. cbn [run step world0 find descs info maxFrames inq outq passed]. unfold connectIn. cbn [inq descs find]. rewrite Nat.eqb_refl, V, C.
  cbn [outq]. unfold connectOut at 1. cbn [outq info descs find]. rewrite Nat.eqb_refl. cbn [run step info maxFrames inq outq passed descs].
  unfold without. cbn [filter fst]. rewrite Nat.eqb_refl. cbn [negb]. eexists. split; [reflexivity|]. unfold connectOut. cbn [outq info descs find]. reflexivity.
Qed.

(** A filter that is connected to another stream keeps the queue it made for the first: frames that are larger are written past its end, *)
Theorem C106_larger_stream_refuted : forall f, vCodec f = RAW -> vPix f = RGB32 -> 1920 * 1080 * 2 < len (vData f) <= 1920 * 1080 * 4 ->
  always fromInput [ENew 0 dY; EIn 0 10; EOut; EInOff; ENew 1 (mkD true RAW RGB32); EIn 1 10; EFrame (Some f)] world0 /\
  run [ENew 0 dY; EIn 0 10; EOut; EInOff; ENew 1 (mkD true RAW RGB32); EIn 1 10; EFrame (Some f)] world0 = None.
Proof.
  intros f C P L. split.
  - cbn [always]. repeat (split; [exact Logic.I|intros ? E; vm_compute in E; injection E as <-]). split; [|intros; exact Logic.I]. cbn [fromInput inq qVideo qCodec qCap]. split; [reflexivity|]. split; [exact C|]. lia.
  - remember (EFrame (Some f)) as e. cbn -[len]. subst e. cbn [step process inq outq]. unfold copyFrame. cbn [qCap]. unfold rawRoom. destruct (Z.ltb_spec 4147200 (len (vData f))); [reflexivity|lia].
Qed.
Example C106_larger_case : exists f, vCodec f = RAW /\ vPix f = RGB32 /\ 1920 * 1080 * 2 < len (vData f) <= 1920 * 1080 * 4.
Proof.
  exists (mkF RAW 0 1920 1080 RGB32 0 (repeat 0 (Z.to_nat 8294400))). split; [reflexivity|]. split; [reflexivity|]. cbn [vData]. unfold len. rewrite repeat_length, Z2Nat.id by lia. lia.
Qed.
(** and those of another codec are passed on as if they were of the first. *)
Theorem C106_other_codec_refuted : exists es w f g, always fromInput es world0 /\ run es world0 = Some w /\ arrived es world0 = [f] /\ passed w = [g] /\ vCodec f = RAW /\ vCodec g = H264.
Proof.
  pose (f := mkF RAW 0 2 1 YUYV422 0 [1; 2; 3; 4]).
  exists [ENew 0 dH; EIn 0 100; EOut; EInOff; ENew 1 dY; EIn 1 10; EFrame (Some f)]. eexists. exists f. eexists. split; [|split; [vm_compute; reflexivity|repeat split]].
  cbn [always]. repeat (split; [exact Logic.I|intros ? E; vm_compute in E; injection E as <-]). split; [|intros; exact Logic.I]. vm_compute. repeat split. discriminate.
Qed.

(** A stream of audio is accepted; its first frame is not there as a frame of video, and is used all the same. *)
Theorem C106_audio_refuted : exists es w, always fromInput (es ++ [EFrame None]) world0 /\ run es world0 = Some w /\ inq w <> None /\ outq w <> None /\ step (EFrame None) w = None.
Proof.
  exists [ENew 0 dA; EIn 0 100; EOut]. eexists. split; [|split; [vm_compute; reflexivity|repeat split; discriminate]].
  cbn [app always]. repeat (split; [exact Logic.I|intros ? E; vm_compute in E; injection E as <-]). split; [|intros; exact Logic.I]. reflexivity.
Qed.

Print Assumptions C106_passes_on.
Print Assumptions C106_connected_in_order_partial.
Print Assumptions C106_room.
Print Assumptions C106_output_first_refuted.
Print Assumptions C106_origin_gone_refuted.
Print Assumptions C106_larger_stream_refuted.
Print Assumptions C106_other_codec_refuted.
Print Assumptions C106_audio_refuted.
