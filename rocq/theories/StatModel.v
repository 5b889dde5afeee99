(* The statistics of received and transmitted streams.

   Modelled:
     src/modules/receiver/SourceManager.cpp  lines 712-804, 461-465
     src/modules/transmitter/Connection.cpp  lines 730-744, 761-802
     src/Types.hh  line 51

   Simplifications.
   - double is replaced by exact rationals: rounding is not modelled.
   - The counters, the jitter, the loss ratio and the delay are those live555
     returns: oracles. *)
From Coq Require Import ZArith QArith List Bool.
Import ListNotations.
Local Open Scope list_scope.
Local Open Scope Z_scope.

(* Model's own: unsigned int and int arithmetic. *)
Definition U32 : Z := 4294967296.
(* Model's own: unsigned int and int arithmetic. *)
Definition u32 (z : Z) : Z := z mod U32.
(* Model's own: unsigned int and int arithmetic. *)
Definition s32 (z : Z) : Z := (z + 2147483648) mod U32 - 2147483648.

(* Model's own: comparison of doubles, as rationals. *)
Definition Qlt_b (a b : Q) : bool := negb (Qle_bool b a).

(* Two "if" lines of a measurement: a smallest and a greatest value so far. *)
Record gauge (A : Type) := mkG { gmin : A; gmax : A }.
Arguments mkG {A}. Arguments gmin {A}. Arguments gmax {A}.
(* SourceManager.cpp 761-804: the smallest and the greatest value so far. *)
Definition feed {A} (lt : A -> A -> bool) (g : gauge A) (v : A) : gauge A :=
  mkG (if lt v (gmin g) then v else gmin g) (if lt (gmax g) v then v else gmax g).

(* SCSSubsessionStats (SourceManager.cpp 739-755).  Times are (sec, usec). *)
Record rstat := mkR {
  kbps : gauge Q; loss : gauge Q; jit : gauge Z; jitNow : Z;
  kbytes : Q; recvd : Z; expctd : Z; endTime : Z * Z
}.
(* SourceManager.cpp 739-755. *)
Definition rstat0 (start : Z * Z) : rstat :=
  mkR (mkG (inject_Z (10 ^ 20)) 0%Q) (mkG 1%Q 0%Q) (mkG 40000 0) 0 0%Q 0 0 start.

(* One look at live555's counters: the time, the kilobytes received, the
   packets received and expected (32-bit counters), the jitter. *)
Record look := mkL { lTime : Z * Z; lBytes : Q; lRecv : Z; lExp : Z; lJit : Z }.

(* SourceManager.cpp 761-804 *)
Definition measure (s : rstat) (l : look) : rstat :=
  let secs := u32 (fst (lTime l) - fst (endTime s)) in
  let timeDiff := (inject_Z secs + inject_Z (snd (lTime l) - snd (endTime s)) / inject_Z 1000000)%Q in
  let kbpsNow := if Qeq_bool timeDiff 0 then 0%Q else (8 * (lBytes l - kbytes s) / timeDiff)%Q in
  let kbpsNow := if Qlt_b kbpsNow 0 then 0%Q else kbpsNow in
  let dr := u32 (lRecv l - recvd s) in
  let de := u32 (lExp l - expctd s) in
  let lossNow := if de =? 0 then 0%Q else (1 - inject_Z dr / inject_Z de)%Q in
  mkR (feed Qlt_b (kbps s) kbpsNow) (feed Qlt_b (loss s) lossNow) (feed Z.ltb (jit s) (lJit l)) (lJit l)
      (lBytes l) (lRecv l) (lExp l) (lTime l).
(* Model's own: one measurement after another. *)
Definition measureAll (s : rstat) (ls : list look) : rstat := fold_left measure ls s.

(* ConnRTCPInstance (Connection.cpp 730-744) *)
Record tstat := mkT { tBit : gauge Z; tLoss : gauge Z; tRtt : gauge Z; tJit : gauge Z }.
(* Connection.cpp 730-744. *)
Definition tstat0 : tstat := mkT (mkG 1000000 0) (mkG 100 0) (mkG 1000000 0) (mkG 1000000 0).
(* A report of a receiver: loss ratio (8 bits), delay, jitter. *)
Record report := mkRep { rLoss : Z; rRtt : Z; rJit : Z }.
(* The bytes sent since the last measurement (32 bits) and the microseconds
   that took. *)
Record sent := mkS { sBytes : Z; sTime : Z; sReports : list report }.
(* Connection.cpp 783: 8*currentNumBytes is unsigned; the result is stored
   in a size_t *)
Definition bitrate (b t : Z) : Z := if t =? 0 then 0 else u32 (8 * b) * 1000 / t.
(* Connection.cpp 774-802 *)
Definition tReport (s : tstat) (r : report) : tstat :=
  mkT (tBit s) (feed Z.ltb (tLoss s) (rLoss r)) (feed Z.ltb (tRtt s) (rRtt r)) (feed Z.ltb (tJit s) (rJit r)).
(* Connection.cpp 774-802. *)
Definition tMeasure (s : tstat) (x : sent) : tstat :=
  fold_left tReport (sReports x)
    (mkT (feed Z.ltb (tBit s) (bitrate (sBytes x) (sTime x))) (tLoss s) (tRtt s) (tJit s)).
(* Model's own: one measurement after another. *)
Definition tMeasureAll (s : tstat) (xs : list sent) : tstat := fold_left tMeasure xs s.

(* SourceManager.cpp 725-735, Connection.cpp 761-772: the next measurement.
   [next]: nextStatsMeasurementUSecs; [now]: the clock, in microseconds; the
   result is the new [next] and the time the timer fires at the earliest (a
   negative delay is none). *)
Definition schedule (next now : Z) : Z * Z :=
  let next' := next + 1000000 in
  (next', now + Z.max 0 (s32 (next' - u32 now))).

(* A run of the timer: the i-th time it fires [late] microseconds after it is
   due.  The result is the list of times the measurements are made at. *)
Fixpoint measurements (next now : Z) (lates : list Z) : list Z :=
  match lates with
  | [] => []
  | l :: r => let '(next', due) := schedule next now in
              let t := due + l in t :: measurements next' t r
  end.
