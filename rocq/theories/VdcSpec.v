(* What a user of the video decoder relies on. *)
From Coq Require Import ZArith List Bool.
From Verif Require Import NamesModel VdcModel.
From Verif Require RsmModel.
Import ListNotations.
Local Open Scope list_scope.
Local Open Scope Z_scope.

(* A frame of a codec the decoder offers, in a libav that has this codec and
   memory for it; opening it may fail. *)
Definition offered (c : VCodecType) : Prop := c = H264 \/ c = H265 \/ c = VP8 \/ c = MJPEG.
Definition plain (r : round) : Prop :=
  offered (ccodec (rframe r)) /\ (ropen r = Opens \/ ropen r = OpenFails) /\ (ragain r = Opens \/ ragain r = OpenFails).

(* Every call takes at least a byte and gives no picture larger than a slot. *)
Definition advances (r : round) : Prop :=
  forall n len got, rcalls r n = Took len got -> 0 < len /\ (forall p, got = Some p -> pbytes p <= RsmModel.slotSize).

(* The decoded frame [d] is stamped as the coded frame [f] and was made by a
   decoder for its codec. *)
Definition stampedAs (f : coded) (d : decoded) : Prop :=
  dpts d = cpts f /\ dorg d = corg f /\ dseq d = cseq f /\ dby d = ccodec f.

(* A codec with a delay of [d] frames: frame number k is coded at time T k
   and on receiving it the codec gives picture number k - d. *)
Definition delayed (T : nat -> Z) (d k : nat) : round :=
  mkRound (mkC H264 1 (T k) 0 0) Opens
    (fun _ => Took 1 (if (d <=? k)%nat then Some (mkP (Z.of_nat (k - d)) 1) else None)) Opens.
Definition stream (T : nat -> Z) (d n : nat) : list round := map (delayed T d) (seq 0 n).
