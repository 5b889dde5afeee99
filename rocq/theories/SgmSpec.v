(** What segments of shared memory filters should have. *)
From Verif Require Import Base SgmModel.
Local Open Scope list_scope.
Local Open Scope Z_scope.

Definition reachable (w : world) : Prop := exists l, w = run l nothing.
(** Segment [s] is there and is the one filter [f] tells the identifier of. *)
Definition segmentOf (w : world) (f : filt) (s : seg) : Prop := In s (segs w) /\ sid s = fid f.
(** Somebody finds a segment by this key (as 32 bits). *)
Definition inUse (w : world) (k : Z) : Prop := exists s, In s (segs w) /\ skey s = Some (k mod 2 ^ 32).
(** A filter was to be made, and the memory it got could not be attached. *)
Definition attachFailed (o : op) : Prop := exists k c a, o = Create k c a false.
