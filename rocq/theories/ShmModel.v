(** Model of the shared memory filter: src/modules/sharedMemory/SharedMemory.cpp and .hh. Every byte written by the
    filter and every byte read by the reading process is one step, and the steps interleave arbitrarily. Memory is
    sequentially consistent (compiler and processor reordering of these plain accesses is not modelled). Creation
    of the segment is SgmModel; the copy to the output frame (copyOrgToDstFrame) is ShoModel. *)
From Verif Require Import Base Bytes.
Local Open Scope list_scope.
Local Open Scope Z_scope.

(** SharedMemory.hh 38-41. *)
Definition SHMSIZE : Z := 6220824.
(** SharedMemory.hh 38-41. *)
Definition HEADER_SIZE : Z := 24.
(** SharedMemory.hh 38-41. *)
Definition CHAR_READING : Z := 49.
(** SharedMemory.hh 38-41. *)
Definition CHAR_WRITING : Z := 48.

(** Types.hh: VCodecType and PixType. *)
Inductive vcodec := H264 | H265 | VP8 | MJPEG | RAW | VC_NONE.
(** Types.hh: VCodecType and PixType. *)
Inductive pix := RGB24 | RGB32 | YUV420P | YUV422P | YUV444P | YUYV422 | YUVJ420P | P_NONE.
(** The fields of an InterleavedVideoFrame the filter reads; [vTime] is the presentation time in microseconds. *)
Record vframe := mkF { vCodec : vcodec; vSeq : Z; vW : Z; vH : Z; vPix : pix; vTime : Z; vData : bytes }.

(** getCodecFromVCodec 324-345, getVCodecFromCodecType 347-368, getPixelFormatFromPixType 370-400,
    getPixTypeFromPixelFormat 402-432. *)
Definition codecCode (c : vcodec) : Z := match c with H264 => 1 | VP8 => 2 | MJPEG => 3 | RAW => 4 | _ => 0 end.
(** SharedMemory.cpp 347-368. *)
Definition codecOf (n : Z) : vcodec := if n =? 1 then H264 else if n =? 2 then VP8 else if n =? 3 then MJPEG else if n =? 4 then RAW else VC_NONE.
(** SharedMemory.cpp 370-400. *)
Definition pixCode (p : pix) : Z :=
  match p with RGB24 => 1 | RGB32 => 2 | YUV420P => 3 | YUV422P => 4 | YUV444P => 5 | YUYV422 => 6 | YUVJ420P => 7 | P_NONE => 0 end.
(** SharedMemory.cpp 402-432. *)
Definition pixOf (n : Z) : pix :=
  if n =? 1 then RGB24 else if n =? 2 then RGB32 else if n =? 3 then YUV420P else if n =? 4 then YUV422P else if n =? 5 then YUV444P
  else if n =? 6 then YUYV422 else if n =? 7 then YUVJ420P else P_NONE.

(** An unsigned integer of n bytes in memory, little endian. *)
Fixpoint le (n : nat) (v : Z) : bytes := match n with O => [] | S n => v mod 256 :: le n (v / 256) end.
(** A memcpy as byte stores. *)
Fixpoint stores (a : Z) (l : bytes) : list (Z * Z) := match l with [] => [] | x :: r => (a, x) :: stores (a + 1) r end.

(** writeFramePayload 299-318. *)
Definition writeFramePayload (f : vframe) : list (Z * Z) :=
  stores 2 (le 2 (vSeq f)) ++ stores 4 (le 2 (pixCode (vPix f))) ++ stores 6 (le 2 (codecCode (vCodec f))) ++ stores 8 (le 2 (vH f)) ++
  stores 10 (le 2 (vW f)) ++ stores 12 (le 4 (Z.quot (vTime f) 1000000)) ++ stores 16 (le 4 (Z.rem (vTime f) 1000000)) ++ stores 20 (le 4 (len (vData f))).
(** writeSharedMemoryRAW 289-297. *)
Definition writeRAW (data : bytes) : list (Z * Z) := [(0, CHAR_WRITING)] ++ stores HEADER_SIZE data ++ [(0, CHAR_READING)].
(** writeSharedMemoryH264 187-205; the data pointer of an empty vector is taken to be null. *)
Definition writeH264 (data : bytes) : list (Z * Z) :=
  match data with [] => [] | _ => [(0, CHAR_WRITING)] ++ stores 20 (le 4 (len data)) ++ stores HEADER_SIZE data ++ [(0, CHAR_READING)] end.

(** newFrame, seqNum (uint16_t) and frameData. *)
Record wst := mkW { newFrame : bool; seqNum : Z; frameData : bytes }.
(** SharedMemory.cpp 54-101. *)
Definition wst0 : wst := mkW false 1 [].
(** detectStartCode 237-249; bytes past the end of the frame are taken as zero. *)
Definition at_ (l : bytes) (i : nat) : Z := nth i l 0.
(** SharedMemory.cpp 237-249 *)
Definition detectStartCode (l : bytes) : nat :=
  if (at_ l 0 =? 0) && (at_ l 1 =? 0) && (at_ l 2 =? 1) then 3
  else if (at_ l 0 =? 0) && (at_ l 1 =? 0) && (at_ l 2 =? 0) && (at_ l 3 =? 1) then 4 else 0.
(** parseNal 208-235 and appendNalToFrame 251-287. *)
Definition parseNal (l : bytes) (s : wst) : wst :=
  let off := detectStartCode l in
  if (off =? 0)%nat || (len l =? 0) then s
  else let t := Z.land (at_ l off) 31 in
       if t =? 9 then mkW true (seqNum s) (frameData s)
       else if (t =? 7) || (t =? 8) || (t =? 6) || (t =? 5) || (t =? 1)
       then mkW false (seqNum s) (frameData s ++ [0; 0; 0; 1] ++ skipn off l)
       else s.
(** doProcessFrame 113-149: the stores to perform and the next state, given isWritable(). *)
Definition boundary (f : vframe) (s : wst) : bool := negb (vSeq f =? seqNum s) && newFrame s.
(** SharedMemory.cpp 119-122, 130-135. *)
Definition restart (f : vframe) (s : wst) : wst := if boundary f s then mkW (newFrame s) (vSeq f mod 2 ^ 16) [] else s.
(** SharedMemory.cpp 113-149. *)
Definition process (writable : bool) (f : vframe) (s : wst) : list (Z * Z) * wst :=
  match vCodec f with
  | H264 => (if writable && boundary f s then writeFramePayload f ++ writeH264 (frameData s) else [], parseNal (vData f) (restart f s))
  | RAW => (if writable then writeFramePayload f ++ writeRAW (vData f) else [], s)
  | _ => ([], s)
  end.

(** *** The two processes. The reader polls the flag; when it finds [CHAR_READING] it copies the header, then as
    many bytes as the header says, and gives the memory back. *)
Definition memory := Z -> Z.
(** Model's own: a store. *)
Definition upd (m : memory) (a v : Z) : memory := fun x => if x =? a then v else m x.
(** Model's own: the state of the reading process. *)
Inductive rst := Idle | Copy (acc : bytes).
(** Model's own: a number in the memory, least byte first (SharedMemory.cpp 299-318 writes it so).
    *)
Definition rdle (l : bytes) : Z := fold_right (fun x a => x + 256 * a) 0 l.
(** [inp]: frames still to come; [pend]: stores of the frame being processed; [seen]: what the reader has copied;
    [wlog] (history only): the frames processed with the answer of isWritable(). *)
Record world := mkWorld { mem : memory; inp : list vframe; pend : list (Z * Z); wr : wst; rd_ : rst; seen : list bytes; wlog : list (bool * vframe) }.
(** SharedMemory.cpp 78-101: the state after the constructor. *)
Definition world0 (fs : list vframe) : world := mkWorld (upd (fun _ => 0) 0 CHAR_WRITING) fs [] wst0 Idle [] [].
(** Model's own: the process whose step is next. *)
Inductive who := Writer | Reader.
(** None: a store outside the segment. *)
Definition wstep (w : world) : option world :=
  match pend w with
  | (a, v) :: r => if (0 <=? a) && (a <? SHMSIZE) then Some (mkWorld (upd (mem w) a v) (inp w) r (wr w) (rd_ w) (seen w) (wlog w)) else None
  | [] => match inp w with
          | [] => Some w
          | f :: fs => let writable := mem w 0 =? CHAR_WRITING in
                       let '(ops, s) := process writable f (wr w) in
                       Some (mkWorld (mem w) fs ops s (rd_ w) (seen w) (wlog w ++ [(writable, f)]))
          end
  end.
(** Model's own: a step of the reading process, which is not in /repo. *)
Definition rstep (w : world) : world :=
  match rd_ w with
  | Idle => if mem w 0 =? CHAR_READING then mkWorld (mem w) (inp w) (pend w) (wr w) (Copy []) (seen w) (wlog w) else w
  | Copy acc =>
      let n := len acc in
      if (n <? 22) || (n <? 22 + rdle (sub 18 4 acc)) then mkWorld (mem w) (inp w) (pend w) (wr w) (Copy (acc ++ [mem w (2 + n)])) (seen w) (wlog w)
      else mkWorld (upd (mem w) 0 CHAR_WRITING) (inp w) (pend w) (wr w) Idle (seen w ++ [acc]) (wlog w)
  end.
(** Model's own: an interleaving of both. *)
Fixpoint run (sched : list who) (w : world) : option world :=
  match sched with
  | [] => Some w
  | Writer :: r => match wstep w with Some w => run r w | None => None end
  | Reader :: r => run r (rstep w)
  end.
