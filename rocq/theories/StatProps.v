(* C55: statistics.  C56: the pace of measurements. *)
From Coq Require Import ZArith QArith List Bool Lia Lqa.
From Verif Require Import StatModel StatSpec StatProofs.
Import ListNotations.
Local Open Scope list_scope.
Local Open Scope Z_scope.

(* C55.  A receiver that has looked at a stream at least once reports the
   smallest and the greatest of the bit rates and of the jitters it saw and
   the smallest of the loss shares, each taken between two looks and exact
   also when a counter goes round.  Provided that one of the rates is at most
   10^20, one of the jitters at most 40000, and for the greatest loss that
   one of them is not negative. *)
Theorem C55_receiver_partial t0 l : l <> [] -> history (started t0) l ->
  let s := measureAll (rstat0 (t0 / 1000000, t0 mod 1000000)) (map shown l) in
  let rates := between rateOf (started t0) l in
  let losses := between lossOf (started t0) l in
  (Exists (fun v => v <= inject_Z (10 ^ 20))%Q rates -> Smallest (gmin (kbps s)) rates) /\
  Greatest (gmax (kbps s)) rates /\
  Smallest (gmin (loss s)) losses /\
  (Exists (fun v => 0 <= v)%Q losses -> Greatest (gmax (loss s)) losses) /\
  (Exists (fun v => v <= 40000) (map tJitter l) -> SmallestZ (gmin (jit s)) (map tJitter l)) /\
  (Forall (fun v => 0 <= v) (map tJitter l) -> GreatestZ (gmax (jit s)) (map tJitter l)) /\
  jitNow s = tJitter (last l (started t0)).
Proof.
  intros N H s rates losses.
  destruct (measureAll_spec l _ _ (started_at t0) H) as ((vs & K1 & K2) & L & J & C). fold s in K1, L, J, C. fold rates in K2. fold losses in L.
  cbn [rstat0 kbps loss jit] in K1, L, J.
  assert (NR : rates <> []) by (unfold rates; destruct l; [congruence|discriminate]).
  assert (NL : losses <> []) by (unfold losses; destruct l; [congruence|discriminate]).
  assert (NJ : map tJitter l <> []) by (destruct l; [congruence|discriminate]).
  rewrite K1, L, J. split; [|split; [|split; [|split; [|split; [|split]]]]].
  - intros E. apply (same_smallest _ vs); [exact K2|]. apply smallestQ.
    apply (same_exists _ _ rates); [intros x y Exy; rewrite Exy; auto|exact K2|exact E].
  - apply (same_greatest _ vs); [exact K2|]. apply greatestQ.
    apply (same_exists _ _ rates); [intros x y Exy; rewrite Exy; auto|exact K2|].
    apply forall_exists; [exact NR|]. apply between_bound; [exact H|exact rate_ge0].
  - apply smallestQ. apply forall_exists; [exact NL|]. apply between_bound; [exact H|exact loss_le1].
  - intros E. apply greatestQ. exact E.
  - intros E. apply smallestZ. exact E.
  - intros E. apply greatestZ. apply forall_exists; assumption.
  - apply C. reflexivity.
Qed.

(* C55 is false: when every jitter seen is above 40000, that is reported as
   the smallest. *)
Theorem C55_jitter_refuted t0 l : l <> [] -> history (started t0) l ->
  Forall (fun v => 40000 < v) (map tJitter l) ->
  let s := measureAll (rstat0 (t0 / 1000000, t0 mod 1000000)) (map shown l) in
  gmin (jit s) = 40000 /\ ~ In 40000 (map tJitter l).
Proof.
  intros N H F s. destruct (measureAll_spec l _ _ (started_at t0) H) as (_ & _ & J & _). fold s in J. rewrite J.
  split; [apply wrong_minZ; exact F|]. intros I. rewrite Forall_forall in F. specialize (F _ I). cbn beta in F. lia.
Qed.
(* C55 is false: packets that arrive twice make the loss negative, and the
   smallest loss is reported so; when all are, zero is reported as the
   greatest. *)
Theorem C55_negative_loss_refuted t0 l : l <> [] -> history (started t0) l ->
  Forall (fun v => v < 0)%Q (between lossOf (started t0) l) ->
  let s := measureAll (rstat0 (t0 / 1000000, t0 mod 1000000)) (map shown l) in
  (gmin (loss s) < 0)%Q /\ gmax (loss s) = 0%Q.
Proof.
  intros N H F s. destruct (measureAll_spec l _ _ (started_at t0) H) as (_ & L & _ & _). fold s in L. rewrite L. cbn [rstat0 loss].
  destruct (feedQ (between lossOf (started t0) l) (mkG 1%Q 0%Q)) as ((A1 & A2 & A3) & (B1 & B2 & B3)). cbn [gmin gmax] in *.
  rewrite Forall_forall in F. split.
  - destruct A3 as [A3|A3]; [|exact (F _ A3)].
    destruct l as [|b r]; [congruence|]. cbn [between] in *. inversion A2; subst. specialize (F (lossOf (started t0) b) (or_introl eq_refl)). cbn beta in F. lra.
  - destruct B3 as [B3|B3]; [exact B3|]. specialize (F _ B3). cbn beta in F. lra.
Qed.

(* C55.  A sender reports the smallest and the greatest of what its
   receivers reported and of the bit rates it measured, provided that one of
   the values is not above the bound it starts with. *)
Theorem C55_sender_partial xs :
  let s := tMeasureAll tstat0 xs in
  let rs := flat_map sReports xs in
  let rates := map (fun x => bitrate (sBytes x) (sTime x)) xs in
  (forall x, In x xs -> 0 <= sTime x) -> (forall r, In r rs -> 0 <= rLoss r /\ 0 <= rRtt r /\ 0 <= rJit r) ->
  (xs <> [] -> GreatestZ (gmax (tBit s)) rates) /\
  (rs <> [] -> GreatestZ (gmax (tLoss s)) (map rLoss rs) /\ GreatestZ (gmax (tRtt s)) (map rRtt rs) /\ GreatestZ (gmax (tJit s)) (map rJit rs)) /\
  (Exists (fun v => v <= 1000000) rates -> SmallestZ (gmin (tBit s)) rates) /\
  (Exists (fun v => v <= 100) (map rLoss rs) -> SmallestZ (gmin (tLoss s)) (map rLoss rs)) /\
  (Exists (fun v => v <= 1000000) (map rRtt rs) -> SmallestZ (gmin (tRtt s)) (map rRtt rs)) /\
  (Exists (fun v => v <= 1000000) (map rJit rs) -> SmallestZ (gmin (tJit s)) (map rJit rs)).
Proof.
  intros s rs rates T R. unfold s. rewrite tMeasureAll_spec. fold rs. fold rates. cbn zeta. cbn [tstat0 tBit tLoss tRtt tJit].
  split; [|split; [|split; [|split; [|split]]]]; try (intros E; apply smallestZ; exact E).
  - intros N. apply greatestZ. apply forall_exists; [unfold rates; destruct xs; [congruence|discriminate]|].
    unfold rates. apply Forall_forall. intros v V. apply in_map_iff in V. destruct V as (x & <- & X).
    unfold bitrate. destruct (Z.eqb_spec (sTime x) 0); [lia|]. specialize (T x X).
    apply Z.div_pos; [|lia]. unfold u32, U32. pose proof (Z.mod_pos_bound (8 * sBytes x) 4294967296). lia.
  - intros N. assert (M : forall f : report -> Z, map f rs <> []) by (intros f; destruct rs; [congruence|discriminate]).
    repeat split; try (apply greatestZ; apply forall_exists; [apply M|]; apply Forall_forall; intros v V;
      apply in_map_iff in V; destruct V as (x & <- & X); specialize (R x X); lia);
    match goal with |- context [fold_left (feed Z.ltb) ?vs ?g] => destruct (feedZ vs g) as (_ & (_ & B & _)); exact B end.
Qed.
(* C55 is false: a connection that from the start loses more than 100/256 of
   its packets reports 100 as its smallest loss; and the number reported as a
   percentage is a share of 256. *)
Theorem C55_sender_loss_refuted xs :
  let rs := flat_map sReports xs in
  rs <> [] -> Forall (fun v => 100 < v) (map rLoss rs) ->
  gmin (tLoss (tMeasureAll tstat0 xs)) = 100 /\ ~ In 100 (map rLoss rs).
Proof.
  intros rs N F. rewrite tMeasureAll_spec. cbn zeta. fold rs. cbn [tstat0 tLoss]. split; [apply wrong_minZ; exact F|].
  intros I. rewrite Forall_forall in F. specialize (F _ I). cbn beta in F. lia.
Qed.
(* RTCP: of 256 packets, [lost] were lost. *)
Theorem C55_sender_unit_refuted lost rtt j : 0 < lost < 256 ->
  let s := tMeasureAll tstat0 [mkS 0 1000000 [mkRep lost rtt j]] in
  gmax (tLoss s) = lost /\ gmax (tLoss s) * 256 > 100 * lost.
Proof.
  intros L s. assert (E : gmax (tLoss s) = lost).
  { unfold s. cbn. destruct (Z.ltb_spec 0 lost); [reflexivity|lia]. }
  rewrite E. lia.
Qed.
(* C55.  The bit rate of a sender, in kilobits per second, rounded down. *)
Theorem C55_sender_rate_partial b t : 0 <= b < 536870912 -> 0 <= t ->
  (0 < t -> bitrate b t = 8 * b * 1000 / t) /\ (t = 0 -> bitrate b t = 0).
Proof.
  intros B _. split; [|intros ->; reflexivity]. intros T. unfold bitrate, u32, U32. destruct (Z.eqb_spec t 0); [lia|]. rewrite Z.mod_small by lia. reflexivity.
Qed.
(* C55 is false: the bit rate of a second with 2^29 bytes or more is wrong. *)
Theorem C55_sender_rate_refuted b t : 536870912 <= b < U32 -> 0 < t <= 1000000 -> 
  bitrate b t < 8 * b * 1000 / t.
Proof.
  intros B T. unfold bitrate. destruct (Z.eqb_spec t 0); [lia|]. unfold u32, U32 in *.
  pose proof (Z.mod_pos_bound (8 * b) 4294967296). pose proof (Z.div_mod (8 * b) 4294967296).
  assert (1 <= 8 * b / 4294967296) by (apply Z.div_le_lower_bound; lia).
  apply Z.lt_le_trans with ((8 * b - 4294967296) * 1000 / t + 1).
  - apply Z.le_lt_trans with ((8 * b - 4294967296) * 1000 / t); [apply Z.div_le_mono; lia|lia].
  - rewrite <- Z.div_add by lia. apply Z.div_le_mono; lia.
Qed.

(* C56.  When no measurement is as late as a second, the one number i (from
   1) is made i seconds after the start, plus its own lateness: lateness does
   not add up, whatever the clock shows. *)
Theorem C56_pace_partial lates : forall start, Forall (fun l => 0 <= l < 1000000) lates ->
  forall i l, nth_error lates i = Some l ->
  nth_error (measurements start start lates) i = Some (start + (Z.of_nat i + 1) * 1000000 + l).
Proof.
  assert (G : forall next now, 0 <= now - next < 1000000 -> Forall (fun l => 0 <= l < 1000000) lates ->
    forall i l, nth_error lates i = Some l ->
    nth_error (measurements next now lates) i = Some (next + (Z.of_nat i + 1) * 1000000 + l)).
  { induction lates as [|l0 r IH]; intros next now B F i l H; [destruct i; discriminate|].
    inversion F as [|? ? F1 F2]; subst. cbn [measurements]. unfold schedule. rewrite s32_delta by lia.
    rewrite Z.max_r by lia. destruct i as [|i]; cbn [nth_error] in *.
    - inversion H; subst. f_equal. lia.
    - rewrite (IH (next + 1000000)) with (l := l); [f_equal; lia|lia|exact F2|exact H]. }
  intros start F. apply G; [lia|exact F].
Qed.
(* C56.  A measurement that is late, by less than half an hour, is followed at
   once by those that were missed. *)
Theorem C56_catch_up_partial next now : 1000000 <= now - next <= 1800000000 ->
  schedule next now = (next + 1000000, now).
Proof. intros B. unfold schedule. rewrite s32_delta by lia. f_equal. rewrite Z.max_l by lia. lia. Qed.
(* C56 is false: when the clock jumps by more than 2^31 microseconds, 36
   minutes, there are no measurements until up to 36 minutes later. *)
Theorem C56_jump_refuted next d : 2147483648 < d < U32 ->
  schedule next (next + 1000000 + d) = (next + 1000000, next + 1000000 + d + (U32 - d)).
Proof.
  intros D. unfold schedule. f_equal. f_equal. unfold U32 in *.
  replace (s32 (next + 1000000 - u32 (next + 1000000 + d))) with (4294967296 - d); [lia|].
  unfold s32, u32, U32. set (n := next + 1000000).
  replace (n - (n + d) mod 4294967296 + 2147483648) with (2147483648 - d + (1 + (n + d) / 4294967296) * 4294967296 - 4294967296).
  - replace (2147483648 - d + (1 + (n + d) / 4294967296) * 4294967296 - 4294967296)
      with (6442450944 - d + ((n + d) / 4294967296 - 1) * 4294967296) by lia.
    rewrite Z_mod_plus_full. rewrite Z.mod_small by lia. lia.
  - pose proof (Z.div_mod (n + d) 4294967296). lia.
Qed.

(* Cases. *)
Definition hist : list truth :=
  [mkTr 1001200000 100 4294967290 4294967295 30000; mkTr 1002100000 150 4294967330 4294967395 60000; mkTr 1003100000 150 4294967330 4294967395 50000].
Example C55_case : history (started 1000500000) hist /\
  let s := measureAll (rstat0 (1000, 500000)) (map shown hist) in
  (gmax (loss s) == 3 # 5)%Q /\ (gmin (kbps s) == 0)%Q /\ gmin (jit s) = 30000 /\ gmax (jit s) = 60000.
Proof. vm_compute. repeat split; try discriminate; intros; discriminate. Qed.
Example C55_case_jitter : history (started 0) [mkTr 1000000 1 1 1 50000] /\ Forall (fun v => 40000 < v) (map tJitter [mkTr 1000000 1 1 1 50000]).
Proof. split; [vm_compute; repeat split; try discriminate; intros; discriminate|]. repeat constructor. Qed.
Example C55_case_negative : history (started 0) [mkTr 1000000 1 3 2 0] /\ Forall (fun v => v < 0)%Q (between lossOf (started 0) [mkTr 1000000 1 3 2 0]).
Proof. split; [vm_compute; repeat split; try discriminate; intros; discriminate|]. repeat constructor. Qed.
Example C55_case_sender :
  let s := tMeasureAll tstat0 [mkS 125000 1000000 [mkRep 0 10 20; mkRep 128 5 7]; mkS 250000 1000000 []] in
  gmin (tBit s) = 1000 /\ gmax (tBit s) = 2000 /\ gmin (tRtt s) = 5 /\ gmax (tLoss s) = 128.
Proof. vm_compute. auto. Qed.
Example C56_case : measurements 7000000000 7000000000 [10; 999999; 0] = [7001000010; 7002999999; 7003000000].
Proof. vm_compute. reflexivity. Qed.

Print Assumptions C55_receiver_partial.
Print Assumptions C55_jitter_refuted.
Print Assumptions C55_negative_loss_refuted.
Print Assumptions C55_sender_partial.
Print Assumptions C55_sender_loss_refuted.
Print Assumptions C55_sender_unit_refuted.
Print Assumptions C55_sender_rate_partial.
Print Assumptions C55_sender_rate_refuted.
Print Assumptions C56_pace_partial.
Print Assumptions C56_catch_up_partial.
Print Assumptions C56_jump_refuted.
