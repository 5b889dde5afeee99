(** Model of the register of a connection's receivers (Connection.hh 73-102, Connection.cpp 405-427, 719-750, and
    createRTCP of the six subsessions: H264QueueServerMediaSubsession.cpp 71-82, H265QueueServerMediaSubsession.cpp 73-84,
    VP8QueueServerMediaSubsession.cpp 60-71, AudioQueueServerMediaSubsession.cpp 107-118, ADTSQueueServerMediaSubsession.cpp 113-124,
    MPEGTSQueueServerMediaSubsession.cpp 142-153), and of the port an RTSP server gets (SinkManager.cpp 38-70).

    Simplified: which numbers rand() gives is left open; the report is taken between two rounds of the transmitter. *)
From Verif Require Import Base ZMap.

(** A receiver's RTCP instance: which object it is, and its [id] (Connection.hh 473): rand(), or the port for plain RTP. *)
Record receiver := mkRc { who : nat; number : Z }.
(** createRTCP and finalRTCPSetup; ~ConnRTCPInstance. *)
Inductive visit := Comes (x : receiver) | Goes (x : receiver).
(** cRTCPInstances, Connection.hh 102. *)
Definition register := zmap receiver.
(** Connection.hh 81: addConnectionRTCPInstance; Connection.hh 86 and Connection.cpp 748: deleteConnectionRTCPInstance. *)
Definition note (r : register) (v : visit) : register :=
  match v with Comes x => mset (number x) x r | Goes x => mdel (number x) r end.
(** From the start of the connection (Connection.cpp 39-42) on. *)
Definition after (h : list visit) : register := fold_left note h [].
(** The receivers the state report tells of: SinkManager.cpp 660, 680. *)
Definition told (r : register) : list receiver := map snd r.

(** *** The RTSP server's port *)
(** SinkManager.hh 38. *)
Definition RTSP_PORT : Z := 8554.
(** SinkManager.cpp 55-64: [free p] is whether a server can be made at [p]. [n] bounds the loop, which ends after six rounds. *)
Fixpoint listenAt (free : Z -> bool) (n : nat) (port : Z) : option Z :=
  match n with
  | O => None
  | S m => if (port <=? RTSP_PORT + 10)%Z then (if free port then Some port else listenAt free m (port + 2)) else None
  end.
(** The transmitters there are: which, and the port its server has. *)
Definition transmitters := list (nat * Z).
(** What happens: a transmitter is asked for, when other programs have the ports [taken]; one is destroyed. *)
Inductive change := Asked (t : nat) (taken : list Z) | Destroyed (t : nat).
(** A port is free if nobody has it: live555 does not share the ports of servers. *)
Definition freeAt (s : transmitters) (taken : list Z) (p : Z) : bool := negb (existsb (Z.eqb p) (taken ++ map snd s)).
(** createNew, SinkManager.cpp 38-47: no transmitter without a server; stop closes the server (105-107). *)
Definition alter (s : transmitters) (c : change) : transmitters :=
  match c with
  | Asked t taken => match listenAt (freeAt s taken) 7 RTSP_PORT with Some p => (t, p) :: s | None => s end
  | Destroyed t => filter (fun x => negb (fst x =? t)%nat) s
  end.
(** Model's own: one change after another. *)
Definition alters (cs : list change) : transmitters := fold_left alter cs [].
