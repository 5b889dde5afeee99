(** Model of the output of the shared memory filter: src/modules/sharedMemory/SharedMemory.cpp 113-158, 172-185 and 434-443,
    src/AVFramedQueue.cpp 29-38 and 124-175, src/VideoFrame.cpp 59-98.

    Simplified: what is written to the memory is ShmModel's; doProcessFrame copies first and answers true whatever the memory says. One frame
    of the input is one step. Frames that the queue has no room for are QueueModel's. Descriptions of streams belong to the filters before
    this one: those that there are have a name, and a freed one is not there. Sizes fit an int. *)
From Verif Require Import Base Bytes ShmModel.
Local Open Scope list_scope.
Local Open Scope Z_scope.

(** StreamInfo.hh 34-63: whether the stream is video, the codec and the pixel format. *)
Record desc := mkD { dVideo : bool; dCodec : vcodec; dPix : pix }.
(** AVFramedQueue, as made: the number of frames, the codec the frames have and the bytes each has room for; [qFrom]: the name of the description. *)
Record queue := mkQ { qFrom : nat; qVideo : bool; qMax : Z; qCodec : vcodec; qCap : Z }.
(** SharedMemory.hh: streamInfo and maxFrames; the queue before the filter and the one after; the descriptions there are, by name; and what
    was put into the queue after the filter. *)
Record world := mkS { info : option nat; maxFrames : Z; inq : option queue; outq : option queue; descs : list (nat * desc); passed : list vframe }.
(** SharedMemory.cpp 99-100. *)
Definition world0 : world := mkS None 0 None None [] [].
(** Model's own: the description of the name [i], if it is not freed. *)
Fixpoint find (i : nat) (l : list (nat * desc)) : option desc :=
  match l with [] => None | (j, d) :: r => if Nat.eqb j i then Some d else find i r end.
(** Model's own: the descriptions without that of the name [i]. *)
Definition without (i : nat) (l : list (nat * desc)) : list (nat * desc) := filter (fun p => negb (Nat.eqb (fst p) i)) l.

(** VideoFrame.cpp 81-96 with Types.hh 34-38. *)
Definition rawRoom (p : pix) : Z := 1920 * 1080 * match p with RGB24 => 3 | RGB32 => 4 | YUYV422 => 2 | _ => 3 end.
(** VideoFrameQueue::setup, AVFramedQueue.cpp 144-175: the room each frame has, or no queue. *)
Definition setup (c : vcodec) (p : pix) : option Z :=
  match c with
  | H264 | H265 => Some (1024 * 1024 * 2)
  | VP8 => Some (512 * 1024)
  | RAW => match p with P_NONE => None | _ => Some (rawRoom p) end
  | _ => None
  end.
(** VideoFrameQueue::createNew, AVFramedQueue.cpp 124-136, with AVFramedQueue 29-38. *)
Definition createNew (i : nat) (d : desc) (n : Z) : option queue :=
  match setup (dCodec d) (dPix d) with Some cap => Some (mkQ i true (if 250 <? n then 250 else n) (dCodec d) cap) | None => None end.

(** What happens: a filter makes, changes or frees its description; the input is connected to a queue made for a description with so many
    frames, or disconnected; the output is connected or disconnected; a frame arrives, [None] if it is not video. *)
Inductive ev :=
| ENew (i : nat) (d : desc) | EChange (i : nat) (d : desc) | EFree (i : nat)
| EIn (i : nat) (n : Z) | EInOff | EOut | EOutOff | EFrame (f : option vframe).

(** SharedMemory::specificReaderConfig 434-443, called for a queue that another filter has made. The queue of an audio stream (AudioFrameQueue)
    is accepted too. *)
Definition connectIn (i : nat) (n : Z) (w : world) : world :=
  match inq w, find i (descs w) with
  | None, Some d =>
      match (if dVideo d then createNew i d n else Some (mkQ i false (if 250 <? n then 250 else n) (dCodec d) 0)) with
      | Some q => mkS (Some i) (qMax q) (Some q) (outq w) (descs w) (passed w)
      | None => w
      end
  | _, _ => w
  end.
(** SharedMemory::allocQueue 151-158, in BaseFilter::connect, Filter.cpp 321-364: [None]: the description that is read is not there. *)
Definition connectOut (w : world) : option world :=
  match outq w with
  | Some _ => Some w
  | None =>
      match info w with
      | None => None
      | Some i =>
          match find i (descs w) with
          | None => None
          | Some d => Some (mkS (info w) (maxFrames w) (inq w) (createNew i d (maxFrames w)) (descs w) (passed w))
          end
      end
  end.
(** copyOrgToDstFrame 172-185: the frame of the queue keeps its codec; [None]: it has no room for the bytes. *)
Definition copyFrame (q : queue) (f : vframe) : option vframe :=
  if qCap q <? len (vData f) then None else Some (mkF (qCodec q) (vSeq f) (vW f) (vH f) (vPix f) (vTime f) (vData f)).
(** doProcessFrame 113-149, called by OneToOneFilter::runDoProcessFrame (Filter.cpp 755-764) if there is a frame and a queue to write to. *)
Definition process (f : option vframe) (w : world) : option world :=
  match inq w, outq w with
  | Some _, Some q =>
      match f with
      | None => None
      | Some f => match copyFrame q f with Some g => Some (mkS (info w) (maxFrames w) (inq w) (outq w) (descs w) (passed w ++ [g])) | None => None end
      end
  | _, _ => Some w
  end.
(** Model's own: one step. A filter that is destroyed is disconnected first. *)
Definition step (e : ev) (w : world) : option world :=
  match e with
  | ENew i d => Some (match find i (descs w) with Some _ => w | None => mkS (info w) (maxFrames w) (inq w) (outq w) ((i, d) :: descs w) (passed w) end)
  | EChange i d => Some (match find i (descs w) with Some _ => mkS (info w) (maxFrames w) (inq w) (outq w) ((i, d) :: without i (descs w)) (passed w) | None => w end)
  | EFree i => Some (mkS (info w) (maxFrames w) (match inq w with Some q => if Nat.eqb (qFrom q) i then None else Some q | None => None end) (outq w) (without i (descs w)) (passed w))
  | EIn i n => Some (connectIn i n w)
  | EInOff => Some (mkS (info w) (maxFrames w) None (outq w) (descs w) (passed w))
  | EOut => connectOut w
  | EOutOff => Some (mkS (info w) (maxFrames w) (inq w) None (descs w) (passed w))
  | EFrame f => process f w
  end.
(** Model's own: a history; [None]: memory that is not there was read or written. *)
Fixpoint run (es : list ev) (w : world) : option world :=
  match es with [] => Some w | e :: r => match step e w with Some w' => run r w' | None => None end end.
