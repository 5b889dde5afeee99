(** Model of the demuxer filter: src/modules/headDemuxer/HeadDemuxerLibav.cpp. What libav gives (packets, the AVCC to
    Annex B conversion, and the double precision conversion of ticks to microseconds) is an input. *)
From Verif Require Import Base Bytes.
Local Open Scope list_scope.
Local Open Scope Z_scope.

(** findStartCode 90-104: [k] is the number of positions left to try; -1 is None. The reads are in bounds because
    [offs + 3 < buffer_length]. *)
Definition startAt (b : bytes) (o : nat) : bool :=
  (nth o b 0 =? 0) && (nth (o + 1) b 0 =? 0) && ((nth (o + 2) b 0 =? 1) || ((nth (o + 2) b 0 =? 0) && (nth (o + 3) b 0 =? 1))).
(** HeadDemuxerLibav.cpp 90-104. *)
Fixpoint findFrom (k : nat) (b : bytes) (o : nat) : option nat := match k with O => None | S k => if startAt b o then Some o else findFrom k b (S o) end.
(** HeadDemuxerLibav.cpp 90-104 *)
Definition findStartCode (b : bytes) (offs blen : nat) : option nat := findFrom (blen - 3 - offs) b offs.

(** PrivateStreamInfo (HeadDemuxerLibav.hh 62-76). *)
Record psinfo := mkPsi { needsFraming : bool; isAnnexB : bool; lastPTS : Z }.
(** A packet as read by av_read_frame; [kData] are its bytes, [kConv] the result of the Annex B filter (None: it
    failed). NOPTS is None. The decode time is handled like the presentation time and left out. *)
Record packet := mkPkt { kStream : Z; kPts : option Z; kData : bytes; kConv : option bytes }.
(** A delivered frame: stream (writer), time, bytes. *)
Record dframe := mkD { dStream : Z; dTime : Z; dData : bytes }.
(** The packet in hand with the buffer being split and bufferOffset. *)
Record demux := mkDx { infos : Z -> option psinfo; hand : option (packet * bytes * nat); source : list packet }.
(** Model's own: std::map::operator[] and an assignment. *)
Definition setInfo (m : Z -> option psinfo) (k : Z) (v : psinfo) : Z -> option psinfo := fun x => if x =? k then Some v else m x.

(** Splitting, doProcessFrame 169-194. [cap] is the room in the destination frame. The result is the frame and
    bufferOffset (None: -1); no result: an access out of bounds (buffer[-1], or past the destination). *)
Definition split (cap : Z) (buf : bytes) (off : nat) : option (bytes * option nat) :=
  match findStartCode buf off (length buf) with
  | None => None
  | Some start =>
      let e := findStartCode buf (off + 4) (length buf - 4) in
      let stop := match e with Some n => n | None => length buf end in
      let piece := sub start (stop - start) buf in
      let data := if nth (start + 2) buf 0 =? 1 then 0 :: piece else piece in
      if len data <=? cap then Some (data, e) else None
  end.
Section Demux.
Variable toUs : Z -> Z -> Z. (* stream, ticks: (int64_t)(pts * streamTimeBase * 1000000) *)
Variable startTime : Z.      (* av_ctx->start_time_realtime *)
Variable cap : Z -> Z.       (* stream: size of its frames *)
Variable connected : Z -> bool.

(** The frame's times, 204-217. *)
Definition stamp (i : psinfo) (p : packet) : Z := match kPts p with None => lastPTS i + startTime | Some t => toUs (kStream p) t + startTime end.
(** Reading a packet, 112-155: None: no packet in hand afterwards. *)
Definition fetch (d : demux) : demux * option (packet * bytes * nat * psinfo) :=
  match hand d with
  | Some (p, buf, off) => (d, match infos d (kStream p) with Some i => Some (p, buf, off, i) | None => None end)
  | None =>
      match source d with
      | [] => (d, None)
      | p :: rest =>
          match infos d (kStream p) with
          | None => (mkDx (infos d) None rest, None)
          | Some i0 =>
              let i := match kPts p with Some t => mkPsi (needsFraming i0) (isAnnexB i0) t | None => i0 end in
              let m := setInfo (infos d) (kStream p) i in
              if needsFraming i && negb (isAnnexB i)
              then match kConv p with None => (mkDx m None rest, None) | Some b => (mkDx m (Some (p, b, 0%nat)) rest, Some (p, b, 0%nat, i)) end
              else (mkDx m (Some (p, kData p, 0%nat)) rest, Some (p, kData p, 0%nat, i))
          end
      end
  end.
(** doProcessFrame 106-227: the new state and the frame delivered, if any. *)
Definition doProcess (d : demux) : option (demux * option dframe) :=
  let '(d, h) := fetch d in
  match h with
  | None => Some (d, None)
  | Some (p, buf, off, i) =>
      if negb (connected (kStream p)) then Some (mkDx (infos d) None (source d), None)
      else if needsFraming i
      then match split (cap (kStream p)) buf off with
           | None => None
           | Some (data, e) => Some (mkDx (infos d) (match e with Some n => Some (p, buf, n) | None => None end) (source d), Some (mkD (kStream p) (stamp i p) data))
           end
      else if len buf <=? cap (kStream p) then Some (mkDx (infos d) None (source d), Some (mkD (kStream p) (stamp i p) buf)) else None
  end.
(** [n] calls. *)
Fixpoint calls (n : nat) (d : demux) : option (demux * list dframe) :=
  match n with
  | O => Some (d, [])
  | S n => match doProcess d with
           | None => None
           | Some (d, o) => match calls n d with None => None | Some (d', l) => Some (d', match o with Some f => f :: l | None => l end) end
           end
  end.
End Demux.
(** After setURI 270-367. *)
Definition opened (m : Z -> option psinfo) (src : list packet) : demux := mkDx m None src.
