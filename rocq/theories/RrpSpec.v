(* What the receiver should tell of its streams. *)
From Coq Require Import ZArith QArith List Bool String.
From Verif Require Import StatModel StatSpec RrpModel.
Import ListNotations.
Local Open Scope list_scope.
Local Open Scope Z_scope.

(* The object has one member of that name, with that value. *)
Definition told (c : fields) (k : string) (v : value) : Prop := In (k, v) c /\ forall w, In (k, w) c -> w = v.
(* As a number. *)
Definition amount (v : value) : option Q := match v with N z => Some (inject_Z z) | D q => Some q | T _ => None end.
Definition figure (c : fields) (k : string) (q : Q) : Prop := exists v x, told c k v /\ amount v = Some x /\ (x == q)%Q.

(* What happened up to a moment (StatSpec), and the gaps between the packets
   received so far, in microseconds. *)
Record moment := mkMo { now : truth; between2 : list Z }.
Definition clock (t : Z) : Z * Z := (t / 1000000, t mod 1000000).
Definition sum (l : list Z) : Z := fold_right Z.add 0 l.
(* What live555 shows of it.  Before there is a gap, the least gap is the
   greatest number. *)
Definition seen (m : moment) : (Z * Z) * option counters :=
  let t := now m in
  (clock (tTime t),
   Some (mkC (tBytes t) (tRecv t mod U32) (tExp t mod U32) (tJitter t)
             (fold_right Z.min 2147483647 (between2 m)) (fold_right Z.max 0 (between2 m)) (clock (sum (between2 m))))).
(* A stream is set up at [t0]; nothing has come yet at the measurements at
   [silent]; the others see [l]. *)
Definition watched (silent : list Z) (l : list moment) : list ((Z * Z) * option counters) :=
  map (fun t => (clock t, None)) silent ++ map seen l.
Fixpoint increasing (a : Z) (l : list Z) : Prop := match l with [] => True | b :: r => a < b /\ increasing b r end.
Definition lastOf (t0 : Z) (silent : list Z) (l : list moment) : truth := last (map now l) (started (last silent t0)).
Record recording (t0 : Z) (silent : list Z) (l : list moment) : Prop := {
  r_clock : increasing t0 (silent ++ map (fun m => tTime (now m)) l);
  r_truth : history (started (last silent t0)) (map now l);
  r_gaps : Forall (fun m => 1 <= tRecv (now m) /\ Z.of_nat (List.length (between2 m)) = tRecv (now m) - 1 /\ Forall (fun g => 0 <= g < 2147483647) (between2 m)) l;
  r_small : tRecv (lastOf t0 silent l) < U32 /\ tExp (lastOf t0 silent l) < U32 /\ tTime (lastOf t0 silent l) < t0 + 4000000000 * 1000000
}.
(* The object told of such a stream. *)
Definition toldOf (junk : Z * Z) (t0 : Z) (silent : list Z) (l : list moment) : fields :=
  statFields (measuredAll (newStats junk (clock t0) None) (watched silent l)).

(* Kilobits per second, and the share of packets lost in percent, since the
   stream was set up. *)
Definition meanRate (t0 : Z) (t : truth) : Q := (8 * tBytes t * 1000000 / inject_Z (tTime t - t0))%Q.
Definition meanLoss (t : truth) : Q := (100 * (1 - inject_Z (tRecv t) / inject_Z (tExp t)))%Q.
(* The names of the figures: least, on average, greatest. *)
Definition rateNames := ("minBitrateInKbps", "avgBitRateInKbps", "maxBitRateInKbps")%string.
Definition lossNames := ("minPacketLossPercentage", "avgPacketLossPercentage", "maxPacketLossPercentage")%string.
Definition three (c : fields) (ks : string * string * string) (a b d : Q) : Prop :=
  let '(k1, k2, k3) := ks in figure c k1 a /\ figure c k2 b /\ figure c k3 d.

(* An object about a subsession; [k]: what is kept for the ports. *)
Definition about (b : subsession) (k : list (Z * stats)) (c : fields) : Prop :=
  told c "port" (N (port b)) /\ told c "medium" (T (medium b)) /\ told c "codec" (T (codec b)) /\
  (forall s n v, In (port b, s) k -> In (n, v) (statFields s) -> told c n v) /\
  (~ In (port b) (map fst k) -> List.length c = 3%nat).
