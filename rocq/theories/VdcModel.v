(* The video decoder.

   Modelled:
     src/modules/videoDecoder/VideoDecoderLibav.cpp  lines 30-51
        (constructor), 53-62 (destructor), 70-112 (doProcessFrame), 114-177
        (inputConfig), 179-208 (toBuffer), 212-226 (reconfigure)

   Simplifications.
   - libav is an oracle: what opening a decoder answers, and for each call of
     the decoder how many bytes it took and which picture it gave.
   - A picture is a number and the bytes it needs; one that libav cannot lay
     out or copy needs none.
   - Using a context that is missing or freed, or freeing one twice, is a
     crash; a context whose opening failed answers every call with an error.
   - The flags and the extra data of the codec are not modelled. *)
From Coq Require Import ZArith List Bool.
From Verif Require Import NamesModel.
From Verif Require RsmModel.
Import ListNotations.
Local Open Scope list_scope.
Local Open Scope Z_scope.

(* codecCtx: NULL, dangling, allocated only, or open for a codec *)
Inductive handle := Missing | FreedCtx | Unopened | Opened (c : VCodecType).
(* VideoDecoderLibav.hh: fCodec and codecCtx. *)
Record vdec := mkV { fCodec : VCodecType; ctx : handle }.
(* VideoDecoderLibav.cpp 30-51 *)
Definition vdec0 : vdec := mkV VC_NONE Missing.

(* What libav answers when a decoder is to be opened. *)
Inductive opening := NotFound | NoMemory | OpenFails | Opens.

(* VideoDecoderLibav.cpp 116-135: RAW falls through to the default *)
Definition supported (c : VCodecType) : bool :=
  match c with H264 | H265 | VP8 | MJPEG => true | _ => false end.

Inductive configured := Good | Bad | Broken.   (* true, false, crash *)

(* VideoDecoderLibav.cpp 114-177: the old context is freed (137-140), and
   the pointer to it stays when no decoder is found (142-147) *)
Definition inputConfig (s : vdec) (o : opening) : vdec * configured :=
  if supported (fCodec s) then
    match ctx s with
    | FreedCtx => (s, Broken)
    | c =>
      match o with
      | NotFound => (mkV (fCodec s) (match c with Missing => Missing | _ => FreedCtx end), Bad)
      | NoMemory => (mkV (fCodec s) Missing, Bad)
      | OpenFails => (mkV (fCodec s) Unopened, Bad)
      | Opens => (mkV (fCodec s) (Opened (fCodec s)), Good)
      end
    end
  else (s, Bad).

(* Model's own: equality of enumerators. *)
Definition vcodec_eqb (a b : VCodecType) : bool :=
  match a, b with
  | VC_NONE, VC_NONE | H264, H264 | H265, H265 | VP8, VP8 | MJPEG, MJPEG | RAW, RAW => true
  | _, _ => false
  end.

(* VideoDecoderLibav.cpp 212-226: the codec is noted before it is opened *)
Definition reconfigure (s : vdec) (c : VCodecType) (o : opening) : vdec * configured :=
  if vcodec_eqb (fCodec s) c then (s, Good) else inputConfig (mkV c (ctx s)) o.

(* VideoDecoderLibav.cpp 53-62: false when a freed context is freed *)
Definition destroy (s : vdec) : bool := match ctx s with FreedCtx => false | _ => true end.

(* Model's own: what the library gives, and what is delivered. *)
Record picture := mkP { pnum : Z; pbytes : Z }.
(* One call of the decoder: an error, or bytes taken and perhaps a picture. *)
Inductive call := Err | Took (len : Z) (got : option picture).

(* A coded frame: its codec, length and what it is stamped with; a decoded
   one: the number of the picture, its stamps (VideoDecoderLibav.cpp 95-99),
   its length and the codec of the decoder that made it *)
Record coded := mkC { ccodec : VCodecType; clen : Z; cpts : Z; corg : Z; cseq : Z }.
(* Model's own: what the library gives, and what is delivered. *)
Record decoded := mkD { dnum : Z; dpts : Z; dorg : Z; dseq : Z; dlen : Z; dby : VCodecType }.

Inductive result :=
| Crash                  (* missing or freed context *)
| Running                (* the loop has not ended *)
| Nothing                (* no picture, the frame is used up or refused *)
| Delivered (d : decoded)
| Overflow.              (* the picture does not fit its slot *)

(* VideoDecoderLibav.cpp 86-90: after an error *)
Definition again (s : vdec) (o : opening) : vdec * result :=
  let '(s1, r) := inputConfig s o in (s1, match r with Broken => Crash | _ => Nothing end).

(* VideoDecoderLibav.cpp 83-111; [calls n] is the answer to the n-th call,
   [o] the answer when the decoder is opened again after an error.  The slot
   is that of a raw queue (RsmModel.slotSize): toBuffer, 179-208, does not
   compare it with the picture. *)
Fixpoint loop (fuel : nat) (s : vdec) (f : coded) (size : Z) (calls : nat -> call) (n : nat) (o : opening) : vdec * result :=
  if size <=? 0 then (s, Nothing)
  else
    match ctx s with
    | Missing | FreedCtx => (s, Crash)
    | Unopened => again s o
    | Opened c =>
      match fuel with
      | O => (s, Running)
      | S k =>
        match calls n with
        | Err => again s o
        | Took len None => loop k s f (size - len) calls (S n) o
        | Took len (Some p) =>
          if pbytes p <=? 0 then loop k s f (size - len) calls (S n) o
          else if pbytes p <=? RsmModel.slotSize
          then (s, Delivered (mkD (pnum p) (cpts f) (corg f) (cseq f) (pbytes p) c))
          else (s, Overflow)
        end
      end
    end.

(* One round: the frame, the answer to an opening, the calls, the answer to a
   second opening. *)
Record round := mkRound { rframe : coded; ropen : opening; rcalls : nat -> call; ragain : opening }.

(* VideoDecoderLibav.cpp 70-112 *)
Definition process (fuel : nat) (s : vdec) (r : round) : vdec * result :=
  let f := rframe r in
  let '(s1, b) := reconfigure s (ccodec f) (ropen r) in
  match b with
  | Good => loop fuel s1 f (clen f) (rcalls r) 0 (ragain r)
  | Bad => (s1, Nothing)
  | Broken => (s1, Crash)
  end.

(* A run: the results of all rounds, up to the first that crashes, overflows
   or has not ended after [fuel] calls. *)
Definition fatal (x : result) : bool := match x with Crash | Running | Overflow => true | _ => false end.
(* Model's own: one round after another. *)
Fixpoint run (fuel : nat) (s : vdec) (rs : list round) : vdec * list result :=
  match rs with
  | [] => (s, [])
  | r :: t =>
    let '(s1, x) := process fuel s r in
    if fatal x then (s1, [x]) else let '(s2, l) := run fuel s1 t in (s2, x :: l)
  end.
