(* What a user expects of the audio decoder, in terms of the frames put in,
   the answers of the codec library and the frames that come out. *)
From Coq Require Import ZArith List Bool.
From Verif Require Import NamesModel AdcModel.
Import ListNotations.
Local Open Scope list_scope.
Local Open Scope Z_scope.

(* What the calls of the codec, from the [n]th on, make of a packet of [size]
   bytes: nothing, an error, or a first block of samples. *)
Inductive outcome := Nothing | Failed | Found (g : got).
Inductive decodes (calls : nat -> call) : Z -> nat -> outcome -> Prop :=
| D_end : forall size n, size <= 0 -> decodes calls size n Nothing
| D_err : forall size n, 0 < size -> calls n = Err -> decodes calls size n Failed
| D_more : forall size n len x, 0 < size -> calls n = Took len None ->
    decodes calls (size - len) (S n) x -> decodes calls size n x
| D_got : forall size n len g, 0 < size -> calls n = Took len (Some g) ->
    decodes calls size n (Found g).

(* Settings a decoder can be connected with: planar samples, one or two
   channels. *)
Definition sound (p : params) : Prop :=
  (pfmt p = U8P \/ pfmt p = S16P \/ pfmt p = FLTP) /\ 1 <= pch p <= 2.

(* A frame of a codec the decoder knows and the library has, whose decoding
   takes bytes each time and gives samples of a format the decoder knows; the
   converter writes at most what it is told there is room for. *)
Record plain (p : params) (r : round) : Prop := {
  pl_codec : In (ccodec (rframe r)) [PCMU; OPUS; AAC; MP3];
  pl_ch : 0 < cch (rframe r);
  pl_rate : 0 < crate (rframe r);
  pl_open : ropen r = Opens \/ ropen r = OpenFails;
  pl_takes : forall n len, rcalls r n = Took len None -> 0 < len;
  pl_fmt : forall n len g, rcalls r n = Took len (Some g) -> gfmt g <> S_NONE;
  pl_room : forall n len g, rcalls r n = Took len (Some g) -> gwritten g <= 100 * prate p / 1000
}.

(* The decoder open for a frame. *)
Definition decoderOf (f : coded) : handle := Opened (ccodec f) (cch f) (crate f).

(* [d] carries the stamps of [f]. *)
Definition stamped (f : coded) (d : decoded) : Prop :=
  dpts d = cpts f /\ dorg d = corg f /\ dseq d = cseq f.

(* [d] holds the block [g], decoded for [f], converted to [p] from [i], and
   it is as long as the samples written, which fit. *)
Definition holds (p i : params) (f : coded) (g : got) (d : decoded) : Prop :=
  dsrc d = Some (gnum g, p, i, decoderOf f) /\ dsamples d = gwritten g /\
  dlen d = gwritten g * bytesOf (pfmt p) /\
  0 <= dlen d <= bytesOf (pfmt p) * (100 * prate p / 1000).

(* The answer to a frame: it is refused, or handed on with its stamps and the
   first block decoded from it (or, if none was, with no new samples). *)
Definition answered (p : params) (r : round) (x : result) : Prop :=
  x = Refused \/
  exists d, x = Delivered d /\ stamped (rframe r) d /\
    ((exists g i, decodes (rcalls r) (clen (rframe r)) 0 (Found g) /\ holds p i (rframe r) g d) \/
     (decodes (rcalls r) (clen (rframe r)) 0 Nothing /\ dsrc d = None)).

(* A frame with which nothing goes wrong. *)
Record good (r : round) : Prop := {
  gd_open : ropen r = Opens;
  gd_found : exists g, decodes (rcalls r) (clen (rframe r)) 0 (Found g) /\ 0 <= gwritten g
}.

(* A frame with these channels and rate, decoded to this format. *)
Definition uniform (i : params) (r : round) : Prop :=
  cch (rframe r) = pch i /\ crate (rframe r) = prate i /\
  forall n len g, rcalls r n = Took len (Some g) -> gfmt g = pfmt i.
