(* The report of the receiver: what getState tells of its sessions.

   Modelled:
     src/modules/receiver/SourceManager.cpp  lines 410-489 (doGetState),
        702-710 (getSubsessionStats), 739-755 (constructor of the statistics),
        761-804 (a measurement; its core is StatModel's)

   Simplifications.
   - double is replaced by exact rationals, as in StatModel; how they are
     written as text is FtxModel's.
   - The counters of live555 are oracles.  It has none (NULL) before the
     first packet of a stream.
   - totalGaps is not initialised by the constructor: its first value is a
     parameter.
   - Conversions of doubles to int are exact: the values are far below 2^31
     milliseconds. *)
From Coq Require Import ZArith QArith Qround List Bool String.
From Verif Require Import StatModel.
Import ListNotations.
Local Open Scope list_scope.
Local Open Scope Z_scope.

(* The values of a JSON object: SourceManager.cpp 434-476 *)
Inductive value := N (z : Z) | D (q : Q) | T (s : string).
(* Model's own: a JSON object. *)
Definition fields := list (string * value).

(* What RTPReceptionStats tells, SourceManager.cpp 772-800: kilobytes and
   packets received, packets expected, jitter; least and greatest gap between
   packets in microseconds, and the sum of the gaps as (sec, usec). *)
Record counters := mkC { cKb : Q; cRecv : Z; cExp : Z; cJit : Z; cGapMin : Z; cGapMax : Z; cGaps : Z * Z }.

(* SCSSubsessionStats, SourceManager.hh 239-257 *)
Record stats := mkSt { core : rstat; startT : Z * Z; gapMin : Z; gapMax : Z; gaps : Z * Z }.
(* SourceManager.cpp 739-755 *)
Definition newStats (junk t : Z * Z) (o : option counters) : stats :=
  let k := rstat0 t in
  mkSt (match o with
        | Some c => mkR (kbps k) (loss k) (jit k) (jitNow k) (cKb c) (cRecv c) (cExp c) t
        | None => k
        end) t 0 0 junk.
(* SourceManager.cpp 761-804 *)
Definition measureAt (s : stats) (x : (Z * Z) * option counters) : stats :=
  match snd x with
  | Some c => mkSt (measure (core s) (mkL (fst x) (cKb c) (cRecv c) (cExp c) (cJit c))) (startT s) (cGapMin c) (cGapMax c) (cGaps c)
  | None => let k := core s in
            mkSt (mkR (kbps k) (loss k) (jit k) (jitNow k) (kbytes k) (recvd k) (expctd k) (fst x)) (startT s) (gapMin s) (gapMax s) (gaps s)
  end.
(* Model's own: one measurement after another. *)
Definition measuredAll (s : stats) (l : list ((Z * Z) * option counters)) : stats := fold_left measureAt l s.

(* (int) of a double: towards zero, SourceManager.cpp 468-471 *)
Definition trunc (q : Q) : Z := Z.quot (Qnum q) (QDen q).
(* (int) of a size_t, SourceManager.cpp 474-476 *)
Definition toInt (z : Z) : Z := s32 z.

(* SourceManager.cpp 441-476 *)
Definition statFields (s : stats) : fields :=
  let k := core s in
  let secs := u32 (fst (endTime k) - fst (startT s)) in
  let time := (inject_Z secs + inject_Z (snd (endTime k) - snd (startT s)) / inject_Z 1000000)%Q in
  let fraction := if expctd k =? 0 then 1%Q else (1 - inject_Z (recvd k) / inject_Z (expctd k))%Q in
  let fraction := if Qlt_b fraction 0 then 0%Q else fraction in
  let totalMs := (inject_Z (fst (gaps s)) * 1000 + inject_Z (snd (gaps s)) / 1000)%Q in
  (if Qeq_bool (gmax (kbps k)) 0
   then [("minBitrateInKbps", N 0); ("maxBitRateInKbps", N 0); ("avgBitRateInKbps", N 0)]%string
   else [("minBitrateInKbps"%string, D (gmin (kbps k))); ("maxBitRateInKbps"%string, D (gmax (kbps k)));
         ("avgBitRateInKbps"%string, D (if Qeq_bool time 0 then 0 else 8 * kbytes k / time)%Q)])
  ++ [("minPacketLossPercentage"%string, D (100 * gmin (loss k))%Q);
      ("maxPacketLossPercentage"%string, D (if Qeq_bool fraction 1 then 100 else 100 * gmax (loss k))%Q);
      ("avgPacketLossPercentage"%string, D (100 * fraction)%Q);
      ("minInterPacketGapInMiliseconds"%string, N (trunc (inject_Z (gapMin s) / 1000)));
      ("maxInterPacketGapInMiliseconds"%string, N (trunc (inject_Z (gapMax s) / 1000)));
      ("avgInterPacketGapInMiliseconds"%string, N (trunc (if recvd k =? 0 then 0 else totalMs / inject_Z (recvd k))%Q));
      ("minJitterInMicroseconds"%string, N (toInt (gmin (jit k))));
      ("maxJitterInMicroseconds"%string, N (toInt (gmax (jit k))));
      ("curJitterInMicroseconds"%string, N (toInt (jitNow k)))].

(* A subsession of a description, and the statistics kept for the ports of a
   session: smsStats, SourceManager.cpp 702-710 *)
Record subsession := mkSub { port : Z; medium : string; codec : string }.
(* SourceManager.cpp 702-710: the statistics of a port. *)
Fixpoint statsOf (p : Z) (m : list (Z * stats)) : option stats :=
  match m with [] => None | (q, s) :: r => if q =? p then Some s else statsOf p r end.
(* A session: its description, if there is one already, and its statistics. *)
Record session := mkSe { described : option (list subsession); kept : list (Z * stats) }.

(* SourceManager.cpp 431-480 *)
Definition subFields (m : list (Z * stats)) (b : subsession) : fields :=
  [("port", N (port b)); ("medium", T (medium b)); ("codec", T (codec b))]%string
  ++ match statsOf (port b) m with Some s => statFields s | None => [] end.
(* SourceManager.cpp 421-488: the sessions in the order of the map *)
Fixpoint report (l : list (string * session)) : list (string * list fields) :=
  match l with
  | [] => []
  | (id, s) :: r =>
    match described s with
    | None => report r
    | Some subs => (id, map (subFields (kept s)) subs) :: report r
    end
  end.
