(** Requests and answers of an audio buffer, shared by model and specification. *)
From Verif Require Import Base.

(** Configuration fixed by the constructor and setup() (43-49, 180-220). *)
Record acfg := mkCfg {
  rate  : nat;         (* sampleRate *)
  bps   : nat;         (* bytesPerSample *)
  maxs  : nat;         (* chMaxSamples *)
  cap   : nat;         (* bytes per channel of inputFrame, outputFrame, dummyFrame *)
  osz   : nat;         (* outputFrame->getSamples() *)
  wid   : Z; rids : list Z
}.

Section Ops.
Context {B : Type}.
Inductive aop :=
| Put (ts : Z) (samples : nat) (buf : list (list B))   (* fill the input frame and addFrame *)
| Fetch                                                (* getFront *)
| Next.                                                (* removeFrame *)
Inductive aans :=
| Told (ids : list Z)
| Out (o : option (Z * list (list B)))   (* time stamp and, per channel, the delivered bytes *)
| Freed (w : Z).

End Ops.
Arguments aop : clear implicits.
Arguments aans : clear implicits.
