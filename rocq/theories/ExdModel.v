(** Model of where the configuration data of a stream are kept: src/StreamInfo.hh 65-78 and 119-143 (setExtraData, constructor, destructor),
    src/modules/videoEncoder/VideoEncoderX264.cpp 105-121 and VideoEncoderX265.cpp 109-125 (encodeHeadersFrame), src/modules/headDemuxer/HeadDemuxerLibav.cpp
    77-81 and 330-332 (reset, setURI), src/modules/videoDecoder/VideoDecoderLibav.cpp 137-176 (inputConfig), src/modules/transmitter/H264or5QueueSource.cpp 82-107 (parseExtradata, what it reads).

    Simplified: one stream, one queue, one decoder. Blocks and descriptions are numbered in the order they are allocated, and a number is not used again: a
    freed block is distinct from all others. What the decoding library does with the data is not modelled, only how many bytes of them it reads.
    The end of an encoder, whose description is lost and not freed, is not an event. Opening the codec succeeds; the other ways out of inputConfig are in VdcModel. *)
From Coq Require Import Arith ZArith List Bool.
Import ListNotations.
Local Open Scope list_scope.

(** StreamInfo.hh 35-36: extradata and extradata_size of a description. *)
Record description := mkD { extra : option nat; extraSize : nat }.
(** Model's own: the blocks and descriptions allocated so far (None: freed), the description its producer has, the one the queue points at (FrameQueue.hh 230), and
    the pointer and size in the decoder's context (VideoDecoderLibav.cpp 166-167; None: no context). *)
Record store := mkS { blocks : list (option (list Z)); descs : list (option description); cur : option nat; queue : option nat; ctx : option (option nat * nat) }.
(** Model's own: at first there is nothing. *)
Definition store0 : store := mkS [] [] None None None.

(** Model's own: writing at a place of a list. *)
Fixpoint put {A} (n : nat) (x : A) (l : list A) : list A :=
  match l, n with
  | [], _ => []
  | _ :: r, O => x :: r
  | y :: r, S k => y :: put k x r
  end.
(** Model's own: what is at a place, if it is allocated and not freed. *)
Definition at_ {A} (n : nat) (l : list (option A)) : option A := match nth_error l n with Some o => o | None => None end.

(** StreamInfo.hh 67-78: setExtraData. None as data is NULL. *)
Definition setExtraData (data : option (list Z)) (bl : list (option (list Z))) (d : description) : list (option (list Z)) * description :=
  let bl1 := match extra d with Some b => put b None bl | None => bl end in
  let d1 := match extra d with Some _ => mkD None 0 | None => d end in
  match data with
  | Some x => (bl1 ++ [Some x], mkD (Some (length bl1)) (length x))
  | None => (bl1, d1)
  end.

(** What happens: a description is made, it gets data, it is freed, the queue is made for it, the decoder is configured, the library reads the
    data and [n] bytes after them. *)
Inductive event := NewDesc | Headers (data : list Z) | Gone | Plug | Open | Read (n : nat).

(** The producer makes a description: StreamInfo.hh 119-120; VideoEncoderX264or5.cpp 33, HeadDemuxerLibav.cpp 301. *)
Definition newDesc (s : store) : store :=
  match cur s with
  | Some _ => s
  | None => mkS (blocks s) (descs s ++ [Some (mkD None 0)]) (Some (length (descs s))) (queue s) (ctx s)
  end.

(** encodeHeadersFrame, VideoEncoderX264.cpp 118 and VideoEncoderX265.cpp 122; HeadDemuxerLibav.cpp 331. *)
Definition headers (x : list Z) (s : store) : option store :=
  match cur s with
  | None => Some s
  | Some c =>
      match at_ c (descs s) with
      | None => None
      | Some d => let r := setExtraData (Some x) (blocks s) d in Some (mkS (fst r) (put c (Some (snd r)) (descs s)) (cur s) (queue s) (ctx s))
      end
  end.

(** HeadDemuxerLibav.cpp 77-81 (reset); StreamInfo.hh 141-143. The encoders never free theirs (VideoEncoderX264or5.cpp 40-45). *)
Definition gone (s : store) : option store :=
  match cur s with
  | None => Some s
  | Some c =>
      match at_ c (descs s) with
      | None => None
      | Some d => Some (mkS (fst (setExtraData None (blocks s) d)) (put c None (descs s)) None (queue s) (ctx s))
      end
  end.

(** The queue is made for the description: allocQueue, VideoEncoderX264.cpp 123-126; FrameQueue.hh 80. *)
Definition plug (s : store) : store := mkS (blocks s) (descs s) (cur s) (match cur s with Some c => Some c | None => queue s end) (ctx s).

(** inputConfig, VideoDecoderLibav.cpp 137-140 and 165-167: the pointer is shared, not copied. *)
Definition open (s : store) : option store :=
  match queue s with
  | None => Some s
  | Some q =>
      match at_ q (descs s) with
      | None => None
      | Some d => Some (mkS (blocks s) (descs s) (cur s) (queue s) (Some (extra d, extraSize d)))
      end
  end.

(** Model's own: the library reads the data its context points at, and [n] bytes more. Reading a freed block or after its end is undefined (None). *)
Definition read (n : nat) (s : store) : option (list Z) :=
  match ctx s with
  | Some (Some b, k) =>
      match at_ b (blocks s) with
      | None => None
      | Some x => if k + n <=? length x then Some (firstn k x) else None
      end
  | _ => Some []
  end.

(** H264or5QueueSource.cpp 82-107, QueueSource.cpp 11: the source of a sender keeps the description of its queue and reads the data through it, each time it needs
    them. None: a freed description or block is read. What it makes of them, and what it reads after their end, is in TxModel. *)
Definition senderReads (s : store) : option (list Z) :=
  match queue s with
  | None => Some []
  | Some q =>
      match at_ q (descs s) with
      | None => None
      | Some d =>
          if extraSize d =? 0 then Some []
          else match extra d with
               | None => None
               | Some b => match at_ b (blocks s) with Some x => Some (firstn (extraSize d) x) | None => None end
               end
      end
  end.

(** Model's own: one event; None: undefined. *)
Definition step (e : event) (s : store) : option store :=
  match e with
  | NewDesc => Some (newDesc s)
  | Headers x => headers x s
  | Gone => gone s
  | Plug => Some (plug s)
  | Open => open s
  | Read n => match read n s with Some _ => Some s | None => None end
  end.

(** Model's own: a history. *)
Fixpoint run (es : list event) (s : store) : option store :=
  match es with
  | [] => Some s
  | e :: r => match step e s with Some t => run r t | None => None end
  end.
