(** Model of the memory the demuxer holds while it hands out the units of packets: src/modules/headDemuxer/HeadDemuxerLibav.cpp
    27-88 (made, destroyed, reset), 106-227 (a round), 270-290 (another source).

    Simplified: memory is known by which block it is; what libav answers (a packet or none, how the conversion to Annex B
    went, [c]: whether the output is connected, [l]: whether the unit is the last of its buffer) is left open. The contract of
    av_read_frame: a packet without data has no memory; of the filter: it makes a new block only if it answers more than 0, and
    refuses a packet without data. av_packet_unref leaves data NULL. Where units start and the bytes copied are in the
    model of the demuxer's units, not here; a copy of no bytes from NULL (198) is taken as harmless. *)
From Verif Require Import Base.
Local Open Scope nat_scope.

(** What the filter of HeadDemuxerLibav.cpp 131-153 gives: not called; failed; the data as it is; a new block. *)
Inductive conv := Direct | Failed | InPlace | NewBlock.
(** What av_read_frame (117-124) gives: nothing; a packet, [e]: without data, [k]: of a known stream, [f]: of one that is split (174). *)
Inductive packetRead := Nothing | Packet (e k f : bool) (v : conv).
(** av_ctx != NULL, av_pkt.data, buffer, psi->needsFraming of the packet; the blocks there are, and the number of the next one. *)
Record dmx := mkDm { ctx : bool; pkt : option nat; buf : option nat; framing : bool; live : list nat; next : nat }.
(** HeadDemuxerLibav.cpp 27-45: the reset of 42 finds nothing. *)
Definition newDemuxer : dmx := mkDm false None None false [] 0.
(** Model's own: how a round or a command ends: normally; with memory used or freed that is not there; with a read at NULL. *)
Inductive outcome := Fine (d : dmx) | BadMemory | NullRead.
(** Model's own: equal pointers. *)
Definition same (a b : option nat) : bool :=
  match a, b with None, None => true | Some x, Some y => x =? y | _, _ => false end.
(** Model's own: free of a pointer that may be NULL, as free and av_packet_unref do; nothing if the block is not there. *)
Definition release (p : option nat) (l : list nat) : option (list nat) :=
  match p with
  | None => Some l
  | Some x => if existsb (Nat.eqb x) l then Some (remove Nat.eq_dec x l) else None
  end.
(** Lines 160-164 and 219-223: the buffer is freed if it is not the packet's, then the packet. *)
Definition letGo (d : dmx) : outcome :=
  match (if same (buf d) (pkt d) then Some (live d) else release (buf d) (live d)) with
  | None => BadMemory
  | Some l => match release (pkt d) l with
              | None => BadMemory
              | Some l' => Fine (mkDm (ctx d) None None (framing d) l' (next d))
              end
  end.
(** Lines 112-156: the filter is only called for a stream that is split (131). [inl]: the round goes on; [inr]: it has ended. *)
Definition fetch (r : packetRead) (d : dmx) : dmx + outcome :=
  match pkt d with
  | Some _ => inl d
  | None =>
    match r with
    | Nothing => inr (Fine d)
    | Packet e k f v =>
      let p := if e then None else Some (next d) in
      let l := if e then live d else next d :: live d in
      let n := if e then next d else S (next d) in
      let unref (b : option nat) := inr (match release p l with Some l' => Fine (mkDm (ctx d) None b f l' n) | None => BadMemory end) in
      if negb k then unref (buf d)
      else match (if f then (if e then match v with Direct => Direct | _ => Failed end else v) else Direct) with
           | Failed => unref None
           | Direct | InPlace => inl (mkDm (ctx d) p p f l n)
           | NewBlock => inl (mkDm (ctx d) p (Some n) f (n :: l) (S n))
           end
    end
  end.
(** Lines 168-226: [l]: no unit follows. *)
Definition use (l : bool) (d : dmx) : outcome :=
  match buf d with
  | None => if framing d then NullRead else (if l then letGo d else Fine d)
  | Some b => if existsb (Nat.eqb b) (live d) then (if l then letGo d else Fine d) else BadMemory
  end.
(** doProcessFrame 106-227. A packet that is not split is always handed out whole (199). *)
Definition round (r : packetRead) (c l : bool) (d : dmx) : outcome :=
  if negb (ctx d) then Fine d
  else match fetch r d with
       | inr o => o
       | inl d' => if negb c then letGo d' else use (l || negb (framing d')) d'
       end.
(** reset 56-88, also all the destructor does to these (47-50). *)
Definition reset (d : dmx) : outcome :=
  match (match buf d with Some _ => if same (buf d) (pkt d) then Some (live d) else release (buf d) (live d) | None => Some (live d) end) with
  | None => BadMemory
  | Some l => match release (pkt d) l with Some l' => Fine (mkDm false None None (framing d) l' (next d)) | None => BadMemory end
  end.
(** setURI 270-290: [o]: the source could be opened, so that av_ctx is set. *)
Definition setURI (o : bool) (d : dmx) : outcome :=
  match reset d with Fine d' => Fine (mkDm o (pkt d') (buf d') (framing d') (live d') (next d')) | x => x end.
(** Model's own: what happens to a demuxer. *)
Inductive happening := Round (r : packetRead) (c l : bool) | Uri (o : bool).
(** Model's own. *)
Definition happen (h : happening) (d : dmx) : outcome := match h with Round r c l => round r c l d | Uri o => setURI o d end.
(** Model's own: one after the other, up to the first that does not end normally. *)
Fixpoint history (hs : list happening) (d : dmx) : outcome :=
  match hs with [] => Fine d | h :: r => match happen h d with Fine d' => history r d' | x => x end end.
