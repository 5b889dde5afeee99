(* C95: what the receiver tells of its sessions. *)
From Coq Require Import ZArith QArith Qround Qminmax List Bool String Lia Lqa.
From Verif Require Import StatModel StatSpec StatProofs StatProps RrpModel RrpSpec RrpProofs.
Import ListNotations.
Local Open Scope list_scope.
Local Open Scope Z_scope.

Lemma stats_of p k : NoDup (map fst k) -> match statsOf p k with Some s => In (p, s) k /\ (forall s', In (p, s') k -> s' = s) | None => ~ In p (map fst k) end.
Proof.
  induction k as [|[q s] k IH]; intros ND; [intros []|]. cbn [statsOf]. inversion ND as [|? ? N1 N2]; subst. destruct (Z.eqb_spec q p) as [E|E].
  - subst q. split; [left; reflexivity|]. intros s' [H|H]; [injection H as <-; reflexivity|]. exfalso. apply N1. apply in_map_iff. exists (p, s'). split; [reflexivity|exact H].
  - specialize (IH N2). destruct (statsOf p k) as [x|].
    + destruct IH as (I1 & I2). split; [right; exact I1|]. intros s' [H|H]; [injection H as H _; contradiction|apply I2; exact H].
    + intros [H|H]; [cbn in H; congruence|apply IH; exact H].
Qed.
(* Every session that has a description is told once, under its name and in
   the order of the names, with each of its streams in the order of the
   description: port, medium, codec, and the statistics kept for the port. *)
Theorem C95_sessions_listed l :
  map fst (report l) = map fst (filter (fun x => match described (snd x) with Some _ => true | None => false end) l) /\
  forall id s subs, In (id, s) l -> described s = Some subs -> NoDup (map fst (kept s)) ->
    exists objs, In (id, objs) (report l) /\ Forall2 (fun b c => about b (kept s) c) subs objs.
Proof.
  split.
  - induction l as [|[id s] l IH]; [reflexivity|]. cbn [report filter snd]. destruct (described s); [cbn [map fst]; f_equal; exact IH|exact IH].
  - induction l as [|[id s] l IH]; intros i s' subs H D NK; [destruct H|]. destruct H as [H|H].
    + injection H as -> ->. cbn [report]. rewrite D. exists (map (subFields (kept s')) subs). split; [left; reflexivity|].
      clear - NK. induction subs as [|b subs IH]; [constructor|]. cbn [map]. constructor; [|exact IH]. pose proof (stats_of (port b) (kept s') NK) as SO.
      unfold subFields. destruct (statsOf (port b) (kept s')) as [s|].
      * assert (ND: NoDup (map fst ([("port"%string, N (port b)); ("medium"%string, T (medium b)); ("codec"%string, T (codec b))] ++ statFields s))).
        { rewrite map_app, stat_names. apply nodup_strings. reflexivity. }
        split; [apply told_in; [exact ND|left; reflexivity]|]. split; [apply told_in; [exact ND|right; left; reflexivity]|].
        split; [apply told_in; [exact ND|right; right; left; reflexivity]|].
        destruct SO as (SO1 & SO2). split.
        -- intros s2 n v I2 I. rewrite (SO2 _ I2) in I. apply told_in; [exact ND|]. apply in_or_app. right. exact I.
        -- intros C. exfalso. apply C. apply in_map_iff. exists (port b, s). split; [reflexivity|exact SO1].
      * assert (ND: NoDup (map fst ([("port"%string, N (port b)); ("medium"%string, T (medium b)); ("codec"%string, T (codec b))] ++ []))).
        { apply nodup_strings. reflexivity. }
        split; [apply told_in; [exact ND|left; reflexivity]|]. split; [apply told_in; [exact ND|right; left; reflexivity]|].
        split; [apply told_in; [exact ND|right; right; left; reflexivity]|]. split; [|reflexivity].
        intros s2 n v I2 _. exfalso. apply SO. apply in_map_iff. exists (port b, s2). split; [reflexivity|exact I2].
    + destruct (IH i s' subs H D NK) as (objs & O1 & O2). exists objs. split; [|exact O2]. cbn [report]. destruct (described s); [right; exact O1|exact O1].
Qed.
(* A session whose server has not answered yet is not told at all. *)
Theorem C95_all_sessions_told_refuted id s l : described s = None -> NoDup (id :: map fst l) -> ~ In id (map fst (report ((id, s) :: l))).
Proof.
  intros D ND. inversion ND as [|? ? N1 N2]; subst. destruct (C95_sessions_listed ((id, s) :: l)) as (E & _). rewrite E. cbn [filter snd]. rewrite D. intros C.
  apply N1. apply in_map_iff in C. destruct C as (x & E1 & E2). apply filter_In in E2. apply in_map_iff. exists x. split; [exact E1|apply E2].
Qed.

(* The least, mean and greatest bit rate of a stream: they are in order, the
   mean is the one since the stream was set up, the least and the greatest
   are those of the intervals between measurements; for a stream from which
   something had come at the first measurement. *)
Theorem C95_rates_partial junk t0 l : recording t0 [] l -> l <> [] ->
  exists a b d, three (toldOf junk t0 [] l) rateNames a b d /\ (a <= b)%Q /\ (b <= d)%Q /\
    (b == meanRate t0 (lastOf t0 [] l))%Q /\ Greatest d (between rateOf (started t0) (map now l)) /\
    (Exists (fun v => v <= inject_Z (10 ^ 20))%Q (between rateOf (started t0) (map now l)) -> Smallest a (between rateOf (started t0) (map now l))).
Proof.
  intros R NE. destruct (whole junk t0 [] l R) as (A & B & S & T0 & T1 & RE & EE & LE & C). specialize (T1 (or_intror NE)). specialize (LE eq_refl).
  assert (NE2: map now l <> []) by (destruct l; [congruence|discriminate]).
  destruct (C55_receiver_partial t0 (map now l) NE2 (r_truth _ _ _ R)) as (G1 & G2 & _). unfold toldOf. fold (state junk t0 [] l).
  change (measureAll (rstat0 (t0 / 1000000, t0 mod 1000000)) (map shown (map now l))) with
    (measureAll (core (measuredAll (newStats junk (clock t0) None) (map (fun t => (clock t, None)) []))) (map shown (map now l))) in G1, G2.
  rewrite <- C in G1, G2. clear C. set (s := state junk t0 [] l) in *. set (e := lastOf t0 [] l) in *. set (rs := between rateOf (started t0) (map now l)) in *.
  pose proof (r_small _ _ _ R) as (_ & _ & SM). fold e in SM.
  pose proof (inj_pos _ _ T1) as P. destruct A as (A1 & A2 & A3 & A4). pose proof (b_rate _ _ _ B) as BR. pose proof (b_rate0 _ _ _ B) as B0.
  set (mx := gmax (kbps (core s))) in *. set (mn := gmin (kbps (core s))) in *.
  assert (LO: (mn <= meanRate t0 e)%Q) by (unfold meanRate; apply Qle_shift_div_l; [exact P|exact LE]).
  assert (HI: (meanRate t0 e <= mx)%Q) by (unfold meanRate; apply Qle_shift_div_r; [exact P|exact BR]).
  destruct (Qeq_bool mx 0) eqn:Z0.
  - apply Qeq_bool_iff in Z0. exists 0%Q, 0%Q, 0%Q.
    assert (AZ: Forall (fun x => (x == 0)%Q) rs).
    { destruct G2 as (_ & G2). apply Forall_forall. intros x X. rewrite Forall_forall in G2. specialize (G2 x X). cbn beta in G2.
      assert (0 <= x)%Q; [|lra].
      pose proof (between_bound (fun v => (0 <= v)%Q) rateOf _ _ (r_truth _ _ _ R) rate_ge0) as F. fold rs in F. rewrite Forall_forall in F. apply F. exact X. }
    assert (M0: (meanRate t0 e == 0)%Q).
    { assert (0 <= meanRate t0 e)%Q; [|lra]. unfold meanRate. apply Qle_shift_div_l; [exact P|].
      destruct rs as [|r rs'] eqn:ER; [unfold rs in ER; destruct l; [congruence|discriminate]|].
      (* bytes never fall below what they start with *)
      assert (MB: forall q a, history a q -> (tBytes a <= tBytes (last q a))%Q).
      { clear. induction q as [|b q IH]; intros a H; [apply Qle_refl|]. destruct H as ((_ & F & _) & H). rewrite last_from. pose proof (IH b H). lra. }
      pose proof (MB _ _ (r_truth _ _ _ R)) as MB'. fold (lastOf t0 [] l) in MB'. fold e in MB'. cbn [tBytes started] in MB'. lra. }
    split; [|split; [lra|split; [lra|split; [lra|]]]].
    + unfold three, rateNames.
      assert (X: statFields s = [("minBitrateInKbps", N 0); ("maxBitRateInKbps", N 0); ("avgBitRateInKbps", N 0)]%string ++ skipn 3 (statFields s)).
      { unfold statFields. fold mx. apply Qeq_bool_iff in Z0. rewrite Z0. reflexivity. }
      split; [|split]; (eapply figure_in; [rewrite X; cbn [app In]; auto|reflexivity|reflexivity]).
    + assert (RN: rs <> []) by (unfold rs; destruct l; [congruence|discriminate]).
      assert (GZ: Exists (Qeq 0) rs). { destruct rs as [|r rs']; [congruence|]. left. inversion AZ; subst. symmetry. assumption. }
      split; [split; [exact GZ|]|intros _; split; [exact GZ|]].
      * eapply Forall_impl; [|exact AZ]. intros x X. cbn beta in X. cbn beta. lra.
      * eapply Forall_impl; [|exact AZ]. intros x X. cbn beta in X. lra.
  - exists mn, (meanRate t0 e), mx. split; [|split; [exact LO|split; [exact HI|split; [reflexivity|split; [exact G2|exact G1]]]]].
    set (time := (inject_Z (u32 (fst (endTime (core s)) - fst (startT s))) + inject_Z (snd (endTime (core s)) - snd (startT s)) / inject_Z 1000000)%Q).
    assert (X: statFields s = [("minBitrateInKbps"%string, D mn); ("maxBitRateInKbps"%string, D mx);
         ("avgBitRateInKbps"%string, D (if Qeq_bool time 0 then 0 else 8 * kbytes (core s) / time)%Q)] ++ skipn 3 (statFields s)).
    { unfold statFields. fold mx mn. rewrite Z0. reflexivity. }
    assert (TE: (time == inject_Z (tTime e - t0) / inject_Z 1000000)%Q).
    { unfold time. rewrite A4, S. cbn [fst snd clock]. apply elapsed. lia. }
    unfold three, rateNames. split; [|split].
    + eapply figure_in; [rewrite X; cbn [app In]; auto|reflexivity|reflexivity].
    + eapply figure_in; [rewrite X; cbn [app In]; auto|reflexivity|].
      assert (TP: (0 < time)%Q) by (rewrite TE; apply Qlt_shift_div_l; [reflexivity|rewrite Qmult_0_l; exact P]).
      destruct (Qeq_bool time 0) eqn:TZ; [apply Qeq_bool_iff in TZ; lra|]. rewrite A1, TE. unfold meanRate. field. intros Q0. rewrite Q0 in P. lra.
    + eapply figure_in; [rewrite X; cbn [app In]; auto|reflexivity|reflexivity].
Qed.
Print Assumptions C95_rates_partial.

(* The mean is never above the greatest, but a stream that comes late, after
   a first measurement, is told a mean rate below its least rate. *)
Theorem C95_mean_rate_below_greatest junk t0 silent l : recording t0 silent l -> silent <> [] \/ l <> [] ->
  exists a b d, three (toldOf junk t0 silent l) rateNames a b d /\ (b <= d)%Q /\ (b == meanRate t0 (lastOf t0 silent l))%Q.
Proof.
  intros R NE. destruct (whole junk t0 silent l R) as (A & B & S & T0 & T1 & RE & EE & LE & C). specialize (T1 NE). unfold toldOf. fold (state junk t0 silent l).
  set (s := state junk t0 silent l) in *. set (e := lastOf t0 silent l) in *.
  pose proof (r_small _ _ _ R) as (_ & _ & SM). fold e in SM.
  pose proof (inj_pos _ _ T1) as P. destruct A as (A1 & A2 & A3 & A4). pose proof (b_rate _ _ _ B) as BR. pose proof (b_rate0 _ _ _ B) as B0.
  set (mx := gmax (kbps (core s))) in *. set (mn := gmin (kbps (core s))) in *.
  assert (HI: (meanRate t0 e <= mx)%Q) by (unfold meanRate; apply Qle_shift_div_r; [exact P|exact BR]).
  assert (NN: (0 <= meanRate t0 e)%Q).
  { unfold meanRate. apply Qle_shift_div_l; [exact P|].
    assert (MB: forall q a, history a q -> (tBytes a <= tBytes (last q a))%Q).
    { clear. induction q as [|b q IH]; intros a H; [apply Qle_refl|]. destruct H as ((_ & F & _) & H). rewrite last_from. pose proof (IH b H). lra. }
    pose proof (MB _ _ (r_truth _ _ _ R)) as MB'. fold (lastOf t0 silent l) in MB'. fold e in MB'. cbn [tBytes started] in MB'. lra. }
  destruct (Qeq_bool mx 0) eqn:Z0.
  - apply Qeq_bool_iff in Z0. exists 0%Q, 0%Q, 0%Q. split; [|split; [apply Qle_refl|lra]].
    assert (X: statFields s = [("minBitrateInKbps", N 0); ("maxBitRateInKbps", N 0); ("avgBitRateInKbps", N 0)]%string ++ skipn 3 (statFields s)).
    { unfold statFields. fold mx. apply Qeq_bool_iff in Z0. rewrite Z0. reflexivity. }
    unfold three, rateNames. split; [|split]; (eapply figure_in; [rewrite X; cbn [app In]; auto|reflexivity|reflexivity]).
  - exists mn, (meanRate t0 e), mx. split; [|split; [exact HI|reflexivity]].
    set (time := (inject_Z (u32 (fst (endTime (core s)) - fst (startT s))) + inject_Z (snd (endTime (core s)) - snd (startT s)) / inject_Z 1000000)%Q).
    assert (X: statFields s = [("minBitrateInKbps"%string, D mn); ("maxBitRateInKbps"%string, D mx);
         ("avgBitRateInKbps"%string, D (if Qeq_bool time 0 then 0 else 8 * kbytes (core s) / time)%Q)] ++ skipn 3 (statFields s)).
    { unfold statFields. fold mx mn. rewrite Z0. reflexivity. }
    assert (TE: (time == inject_Z (tTime e - t0) / inject_Z 1000000)%Q).
    { unfold time. rewrite A4, S. cbn [fst snd clock]. apply elapsed. lia. }
    unfold three, rateNames. split; [|split].
    + eapply figure_in; [rewrite X; cbn [app In]; auto|reflexivity|reflexivity].
    + eapply figure_in; [rewrite X; cbn [app In]; auto|reflexivity|].
      assert (TP: (0 < time)%Q) by (rewrite TE; apply Qlt_shift_div_l; [reflexivity|rewrite Qmult_0_l; exact P]).
      destruct (Qeq_bool time 0) eqn:TZ; [apply Qeq_bool_iff in TZ; lra|]. rewrite A1, TE. unfold meanRate. field. intros Q0. rewrite Q0 in P. lra.
    + eapply figure_in; [rewrite X; cbn [app In]; auto|reflexivity|reflexivity].
Qed.

(* The losses, in percent: the mean is between 0 and 100, it is the one since
   the stream was set up, and the three are in order. *)
Theorem C95_losses junk t0 silent l : recording t0 silent l ->
  exists a b d, three (toldOf junk t0 silent l) lossNames a b d /\ (a <= b)%Q /\ (b <= d)%Q /\ (0 <= b)%Q /\ (b <= 100)%Q /\
    (0 < tExp (lastOf t0 silent l) -> (b == Qmax 0 (meanLoss (lastOf t0 silent l)))%Q).
Proof.
  intros R. destruct (whole junk t0 silent l R) as (A & B & S & T0 & T1 & RE & EE & LE & C). unfold toldOf. fold (state junk t0 silent l).
  set (s := state junk t0 silent l) in *. set (e := lastOf t0 silent l) in *. clear C LE T1.
  pose proof (r_small _ _ _ R) as (SR & SE & _). fold e in SR, SE. destruct A as (A1 & A2 & A3 & A4).
  rewrite Z.mod_small in A2 by lia. rewrite Z.mod_small in A3 by lia.
  destruct B as [_ _ L0 L1 (L2 & L3)]. set (k := core s) in *.
  set (fr0 := if expctd k =? 0 then 1%Q else (1 - inject_Z (recvd k) / inject_Z (expctd k))%Q).
  set (fr := if Qlt_b fr0 0 then 0%Q else fr0).
  assert (F0: (0 <= fr)%Q). { unfold fr. destruct (Qlt_b fr0 0) eqn:Q0; [apply Qle_refl|apply Qlt_b_false in Q0; exact Q0]. }
  assert (FX: expctd k <> 0 -> (fr0 == 1 - inject_Z (tRecv e) / inject_Z (tExp e))%Q).
  { intros NZ. unfold fr0. apply Z.eqb_neq in NZ. rewrite NZ, A2, A3. reflexivity. }
  assert (RN: 0 < tExp e -> (0 <= inject_Z (tRecv e) / inject_Z (tExp e))%Q).
  { intros EP. apply Qle_shift_div_l; [change 0%Q with (inject_Z 0); rewrite <- Zlt_Qlt; lia|]. rewrite Qmult_0_l. apply inj_nonneg. exact RE. }
  assert (F1: (fr <= 1)%Q).
  { unfold fr. destruct (Qlt_b fr0 0); [discriminate|]. destruct (Z.eq_dec (expctd k) 0) as [EZ|EZ].
    - unfold fr0. rewrite EZ. apply Qle_refl.
    - rewrite (FX EZ). assert (EP: 0 < tExp e) by lia. specialize (RN EP). lra. }
  assert (MIN: (gmin (loss k) <= fr)%Q).
  { destruct L3 as [L3|L3]; [lra|]. destruct (Z.eq_dec (expctd k) 0) as [EZ|EZ].
    - unfold fr, fr0. rewrite EZ. exact L2.
    - assert (EP: 0 < tExp e) by lia. pose proof (inj_pos 0 (tExp e) EP) as P. rewrite Z.sub_0_r in P.
      assert (V: (gmin (loss k) <= fr0)%Q).
      { rewrite (FX EZ). setoid_replace (1 - inject_Z (tRecv e) / inject_Z (tExp e))%Q with ((inject_Z (tExp e) - inject_Z (tRecv e)) / inject_Z (tExp e))%Q by (field; intros Q0; rewrite Q0 in P; lra).
        apply Qle_shift_div_l; [exact P|exact L3]. }
      unfold fr. destruct (Qlt_b fr0 0) eqn:Q0; [apply Qlt_b_true in Q0; lra|exact V]. }
  assert (MAX: Qeq_bool fr 1 = false -> (fr <= gmax (loss k))%Q).
  { intros NB. unfold fr in *. destruct (Qlt_b fr0 0); [exact L0|]. destruct (Z.eq_dec (expctd k) 0) as [EZ|EZ].
    - exfalso. unfold fr0 in NB. rewrite EZ in NB. cbn in NB. discriminate.
    - assert (EP: 0 < tExp e) by lia. pose proof (inj_pos 0 (tExp e) EP) as P. rewrite Z.sub_0_r in P.
      rewrite (FX EZ). setoid_replace (1 - inject_Z (tRecv e) / inject_Z (tExp e))%Q with ((inject_Z (tExp e) - inject_Z (tRecv e)) / inject_Z (tExp e))%Q by (field; intros Q0; rewrite Q0 in P; lra).
      apply Qle_shift_div_r; [exact P|exact L1]. }
  exists (100 * gmin (loss k))%Q, (100 * fr)%Q, (if Qeq_bool fr 1 then 100 else 100 * gmax (loss k))%Q.
  split; [|split; [lra|split; [|split; [lra|split; [lra|]]]]].
  - assert (X: In ("minPacketLossPercentage"%string, D (100 * gmin (loss k))%Q) (statFields s) /\
               In ("avgPacketLossPercentage"%string, D (100 * fr)%Q) (statFields s) /\
               In ("maxPacketLossPercentage"%string, D (if Qeq_bool fr 1 then 100 else 100 * gmax (loss k))%Q) (statFields s)).
    { unfold statFields. fold k. fold fr0. fold fr. cbv zeta. split; [|split]; apply in_or_app; right; cbn [In]; auto. }
    destruct X as (X1 & X2 & X3). unfold three, lossNames.
    split; [eapply figure_in; [exact X1|reflexivity|reflexivity]|]. split; [eapply figure_in; [exact X2|reflexivity|reflexivity]|].
    eapply figure_in; [exact X3|reflexivity|reflexivity].
  - destruct (Qeq_bool fr 1) eqn:Q1; [lra|]. specialize (MAX eq_refl). lra.
  - intros EP. assert (EZ: expctd k <> 0) by lia. pose proof (FX EZ) as FE. unfold meanLoss, fr.
    destruct (Qlt_b fr0 0) eqn:Q0; [apply Qlt_b_true in Q0|apply Qlt_b_false in Q0].
    + rewrite Q.max_l by lra. reflexivity.
    + rewrite Q.max_r by lra. rewrite FE. reflexivity.
Qed.

(* The gaps between packets, in milliseconds: the least and the greatest are
   whole parts; the mean is the sum over the number of packets, of which
   there is one more than there are gaps. *)
Lemma last_gaps junk t0 silent l m : let s := state junk t0 silent (l ++ [m]) in
  gapMin s = fold_right Z.min 2147483647 (between2 m) /\ gapMax s = fold_right Z.max 0 (between2 m) /\ gaps s = clock (sum (between2 m)).
Proof. unfold state, watched. rewrite map_app, app_assoc, measured_app. cbn [map]. unfold measuredAll at 1 3 5. cbn [fold_left]. repeat split; reflexivity. Qed.
Lemma trunc_ms z : 0 <= z -> trunc (inject_Z z / 1000) = z / 1000.
Proof.
  intros H. unfold trunc, Qdiv, Qmult, Qinv, inject_Z. cbn [Qnum Qden]. rewrite Z.mul_1_r. rewrite Z.quot_div_nonneg by lia. reflexivity.
Qed.
Lemma trunc_eq p q : (p == q)%Q -> (0 <= p)%Q -> trunc p = trunc q.
Proof.
  intros E P. assert (Q0: (0 <= q)%Q) by lra. unfold trunc.
  assert (A: Z.quot (Qnum p) (QDen p) = Qfloor p). { unfold Qle in P. cbn in P. destruct p as [n d]. cbn [Qnum Qden Qfloor] in *. apply Z.quot_div_nonneg; lia. }
  assert (B: Z.quot (Qnum q) (QDen q) = Qfloor q). { unfold Qle in Q0. cbn in Q0. destruct q as [n d]. cbn [Qnum Qden Qfloor] in *. apply Z.quot_div_nonneg; lia. }
  rewrite A, B. apply Qfloor_comp. exact E.
Qed.
Lemma sum_nonneg l : Forall (fun g => 0 <= g < 2147483647) l -> 0 <= sum l.
Proof. induction 1 as [|x l H F IH]; [cbn; lia|]. cbn [sum fold_right]. fold (sum l). lia. Qed.
Theorem C95_gaps_partial junk t0 silent l m : recording t0 silent (l ++ [m]) ->
  let c := toldOf junk t0 silent (l ++ [m]) in
  let n := tRecv (now m) in
  (between2 m <> [] ->
     told c "minInterPacketGapInMiliseconds" (N (fold_right Z.min 2147483647 (between2 m) / 1000)) /\
     told c "maxInterPacketGapInMiliseconds" (N (fold_right Z.max 0 (between2 m) / 1000))) /\
  told c "avgInterPacketGapInMiliseconds" (N (sum (between2 m) / (1000 * n))).
Proof.
  intros R. cbv zeta. destruct (whole junk t0 silent _ R) as (A & B & S & T0 & T1 & RE & EE & LE & C). unfold toldOf. fold (state junk t0 silent (l ++ [m])).
  destruct (last_gaps junk t0 silent l m) as (G1 & G2 & G3). set (s := state junk t0 silent (l ++ [m])) in *.
  assert (EL: lastOf t0 silent (l ++ [m]) = now m) by (unfold lastOf; rewrite map_app; apply last_last).
  rewrite EL in *. pose proof (r_small _ _ _ R) as (SR & _ & _). rewrite EL in SR. destruct A as (A1 & A2 & A3 & A4). rewrite Z.mod_small in A2 by lia.
  pose proof (r_gaps _ _ _ R) as RG. rewrite Forall_forall in RG. destruct (RG m (in_or_app l [m] m (or_intror (in_eq m [])))) as (N1 & N2 & N3). clear RG.
  assert (MN: 0 <= fold_right Z.min 2147483647 (between2 m)). { clear - N3. induction N3 as [|x l H F IH]; [cbn; lia|]. cbn [fold_right]. lia. }
  assert (MX: 0 <= fold_right Z.max 0 (between2 m)). { clear. induction (between2 m) as [|x l IH]; [cbn; lia|]. cbn [fold_right]. lia. }
  pose proof (sum_nonneg _ N3) as SN.
  split.
  - intros _. split; (apply told_in; [apply stat_nodup|]); unfold statFields; cbv zeta; apply in_or_app; right; cbn [In];
      rewrite ?G1, ?G2, (trunc_ms _ MN), (trunc_ms _ MX); auto 10.
  - apply told_in; [apply stat_nodup|]. unfold statFields; cbv zeta; apply in_or_app; right. rewrite G3, A2. cbn [clock fst snd].
    destruct (Z.eqb_spec (tRecv (now m)) 0); [lia|].
    match goal with |- In (?k, N ?v) ?L => enough (E: trunc ((inject_Z (sum (between2 m) / 1000000) * 1000 + inject_Z (sum (between2 m) mod 1000000) / 1000) / inject_Z (tRecv (now m))) = v) end.
    { rewrite E. cbn [In]. auto 12. }
    set (g := sum (between2 m)) in *. set (r := tRecv (now m)) in *.
    assert (PR: (0 < inject_Z r)%Q) by (change 0%Q with (inject_Z 0); rewrite <- Zlt_Qlt; lia).
    assert (EQ: ((inject_Z (g / 1000000) * 1000 + inject_Z (g mod 1000000) / 1000) / inject_Z r == inject_Z g / inject_Z (1000 * r))%Q).
    { replace (inject_Z g) with (inject_Z (g / 1000000 * 1000000 + g mod 1000000)) by (f_equal; pose proof (Z.div_mod g 1000000); lia).
      rewrite inject_Z_plus, !inject_Z_mult. field. intros Q0. rewrite Q0 in PR. lra. }
    assert (NN: (0 <= inject_Z g / inject_Z (1000 * r))%Q).
    { apply Qle_shift_div_l; [change 0%Q with (inject_Z 0); rewrite <- Zlt_Qlt; lia|]. rewrite Qmult_0_l. apply inj_nonneg. exact SN. }
    rewrite (trunc_eq _ _ EQ) by (rewrite EQ; exact NN).
    unfold trunc. assert (RP: exists p, 1000 * r = Z.pos p) by (destruct (1000 * r) eqn:ER; [lia|eauto|lia]). destruct RP as (p & RP). rewrite RP.
    unfold Qdiv, Qmult, Qinv, inject_Z. cbn [Qnum Qden]. rewrite Z.mul_1_r, Pos.mul_1_l. apply Z.quot_div_nonneg; lia.
Qed.

(* So with a steady stream the mean gap told is below the least gap told. *)
Theorem C95_mean_gap_refuted junk t0 silent l m ms : recording t0 silent (l ++ [m]) -> between2 m <> [] -> 1 <= ms -> Forall (fun g => g = 1000 * ms) (between2 m) ->
  exists a b, told (toldOf junk t0 silent (l ++ [m])) "minInterPacketGapInMiliseconds" (N a) /\
    told (toldOf junk t0 silent (l ++ [m])) "avgInterPacketGapInMiliseconds" (N b) /\ b < a /\ a = ms.
Proof.
  intros R NE M F. destruct (C95_gaps_partial junk t0 silent l m R) as (G1 & G2). destruct (G1 NE) as (G3 & _).
  pose proof (r_gaps _ _ _ R) as RG. rewrite Forall_forall in RG. destruct (RG m (in_or_app l [m] m (or_intror (in_eq m [])))) as (N1 & N2 & N3). clear RG.
  exists (fold_right Z.min 2147483647 (between2 m) / 1000), (sum (between2 m) / (1000 * tRecv (now m))). split; [exact G3|]. split; [exact G2|].
  assert (SU: sum (between2 m) = Z.of_nat (List.length (between2 m)) * (1000 * ms)).
  { clear - F. induction F as [|x q H F IH]; [reflexivity|]. cbn [sum fold_right List.length]. fold (sum q). lia. }
  assert (MI: fold_right Z.min 2147483647 (between2 m) = 1000 * ms).
  { clear - F N3 NE. induction F as [|x q H F IH]; [congruence|]. inversion N3 as [|? ? X1 X2]; subst. cbn [fold_right].
    destruct q as [|y q]; [cbn [fold_right]; lia|]. rewrite IH by (assumption || discriminate). lia. }
  rewrite MI, SU, N2. replace (1000 * ms) with (ms * 1000) at 2 3 by lia. rewrite Z.div_mul by lia. split; [|reflexivity].
  replace ((tRecv (now m) - 1) * (1000 * ms)) with (1000 * ((tRecv (now m) - 1) * ms)) by lia. rewrite Z.div_mul_cancel_l by lia.
  apply Z.div_lt_upper_bound; nia.
Qed.

(* Nothing has come: everything is told to be lost. *)
Theorem C95_nothing_lost_refuted junk t0 : three (toldOf junk t0 [] []) lossNames 100 100 100.
Proof.
  unfold toldOf. change (measuredAll (newStats junk (clock t0) None) (watched [] [])) with (newStats junk (clock t0) None). unfold three, lossNames.
  split; [|split]; (eapply figure_in; [unfold statFields; cbv zeta; apply in_or_app; right; cbn [In]; auto 12|reflexivity|reflexivity]).
Qed.
(* Packets that come twice make the least loss negative. *)
Theorem C95_loss_percentage_refuted junk t0 m : recording t0 [] [m] -> 0 < tExp (now m) < tRecv (now m) ->
  exists q, figure (toldOf junk t0 [] [m]) "minPacketLossPercentage" q /\ (q < 0)%Q.
Proof.
  intros R H. unfold toldOf. set (s := measuredAll (newStats junk (clock t0) None) (watched [] [m])).
  exists (100 * gmin (loss (core s)))%Q. split; [eapply figure_in; [unfold statFields; cbv zeta; apply in_or_app; right; cbn [In]; auto 12|reflexivity|reflexivity]|].
  assert (NE2: map now [m] <> []) by discriminate.
  destruct (C55_receiver_partial t0 (map now [m]) NE2 (r_truth _ _ _ R)) as (_ & _ & (_ & G) & _). cbn [map between] in G.
  inversion G as [|? ? G1 _]; subst. change (gmin (loss (core s))) with (gmin (loss (measureAll (rstat0 (t0 / 1000000, t0 mod 1000000)) [shown (now m)]))).
  enough (lossOf (started t0) (now m) < 0)%Q by lra. unfold lossOf. cbn [tExp tRecv started]. destruct (Z.eqb_spec (tExp (now m)) 0); [lia|]. rewrite !Z.sub_0_r.
  assert (P: (0 < inject_Z (tExp (now m)))%Q) by (change 0%Q with (inject_Z 0); rewrite <- Zlt_Qlt; lia).
  assert (1 < inject_Z (tRecv (now m)) / inject_Z (tExp (now m)))%Q; [|lra]. apply Qlt_shift_div_l; [exact P|]. rewrite Qmult_1_l. rewrite <- Zlt_Qlt. lia.
Qed.
(* A stream of which nothing has come at the first measurement: its mean rate
   is below its least rate. *)
Theorem C95_late_stream_refuted junk t0 t1 m : recording t0 [t1] [m] -> (0 < tBytes (now m))%Q -> (rateOf (started t1) (now m) <= inject_Z (10 ^ 20))%Q ->
  exists a b d, three (toldOf junk t0 [t1] [m]) rateNames a b d /\ (b < a)%Q.
Proof.
  intros R BP SMALL. assert (NE: [t1] <> []) by (intros H; inversion H). destruct (C95_mean_rate_below_greatest junk t0 [t1] [m] R (or_introl NE)) as (a & b & d & TH & _ & EB).
  exists (rateOf (started t1) (now m)), b, d.
  pose proof (r_clock _ _ _ R) as (T1 & T2 & _). cbn [map app] in T2. pose proof (r_truth _ _ _ R) as (F & _). change (last [t1] t0) with t1 in F.
  set (s1 := measuredAll (newStats junk (clock t0) None) [(clock t1, None)]).
  assert (A: at_ (core s1) (started t1)) by (repeat split; reflexivity).
  destruct (measure_spec (core s1) (started t1) (now m) A F) as (_ & (v & M2 & M3) & _).
  change (kbps (core s1)) with (mkG (inject_Z (10 ^ 20)) 0%Q) in M2.
  pose proof (rate_times (started t1) (now m) T2) as RT. cbn [tTime tBytes started] in RT.
  pose proof (inj_pos _ _ T2) as P2. pose proof (inj_pos t0 (tTime (now m)) ltac:(lia)) as P0. pose proof (inj_pos _ _ T1) as P1.
  assert (RP: (0 < rateOf (started t1) (now m))%Q).
  { apply (Qmult_lt_r 0 _ (inject_Z (tTime (now m) - t1))); [exact P2|]. lra. }
  set (mn := gmin (feed Qlt_b (mkG (inject_Z (10 ^ 20)) 0%Q) v)).
  assert (EM: (mn == v)%Q).
  { unfold mn, feed. cbn [gmin]. destruct (Qlt_b v (inject_Z (10 ^ 20))) eqn:Q0; [reflexivity|]. apply Qlt_b_false in Q0. apply Qle_antisym; [exact Q0|]. rewrite M3. exact SMALL. }
  assert (MX: ~ (gmax (feed Qlt_b (mkG (inject_Z (10 ^ 20)) 0%Q) v) == 0)%Q).
  { pose proof (feed_max (mkG (inject_Z (10 ^ 20)) 0%Q) v) as (_ & X). lra. }
  split.
  - destruct TH as (_ & TH). split; [|exact TH]. unfold toldOf.
    change (measuredAll (newStats junk (clock t0) None) (watched [t1] [m])) with (measureAt s1 (seen m)).
    eapply figure_in with (v := D mn) (x := mn); [|reflexivity|rewrite EM; exact M3].
    unfold statFields. cbv zeta. change (kbps (core (measureAt s1 (seen m)))) with (kbps (measure (core s1) (shown (now m)))). rewrite M2.
    destruct (Qeq_bool (gmax (feed Qlt_b (mkG (inject_Z (10 ^ 20)) 0%Q) v)) 0) eqn:Q0; [apply Qeq_bool_iff in Q0; contradiction|]. left. reflexivity.
  - rewrite EB. change (lastOf t0 [t1] [m]) with (now m). unfold meanRate. apply Qlt_shift_div_r; [exact P0|].
    setoid_replace (8 * tBytes (now m) * 1000000)%Q with (rateOf (started t1) (now m) * inject_Z (tTime (now m) - t1))%Q by (rewrite RT; ring).
    apply Qmult_lt_l; [exact RP|]. rewrite <- Zlt_Qlt. lia.
Qed.
(* If packets had come before the stream was watched, the mean rate told can
   be above the greatest. *)
Theorem C95_earlier_data_refuted : exists c1 c2,
  three (statFields (measuredAll (newStats (0, 0) (clock 0) (Some c1)) [(clock 1000000, Some c2)])) rateNames 8 8008 8.
Proof.
  exists (mkC 1000 100 100 0 0 0 (0, 0)), (mkC 1001 101 101 0 0 0 (0, 0)).
  unfold three, rateNames. split; [|split]; (eapply figure_in; [unfold statFields; cbv zeta; match goal with |- In _ ((if ?b then _ else _) ++ _) => replace b with false by reflexivity end; cbn [app In]; auto|reflexivity|reflexivity]).
Qed.

(* The jitter now, its least and greatest value; the losses of the intervals
   between measurements. *)
Lemma silent_core junk t0 silent : core (measuredAll (newStats junk (clock t0) None) (map (fun t => (clock t, None)) silent)) = rstat0 (clock (last silent t0)).
Proof.
  assert (H: forall l s a, core s = rstat0 (clock a) -> core (measuredAll s (map (fun t => (clock t, None)) l)) = rstat0 (clock (last l a))).
  { induction l as [|t r IH]; intros s a E; [exact E|]. rewrite last_from. cbn [map]. unfold measuredAll. cbn [fold_left]. apply IH. unfold measureAt. cbn [snd core fst]. rewrite E. reflexivity. }
  apply H. reflexivity.
Qed.
Theorem C95_extremes_partial junk t0 silent l : recording t0 silent l -> l <> [] -> Forall (fun m => 0 <= tJitter (now m) < 2147483648) l ->
  let c := toldOf junk t0 silent l in
  let js := map (fun m => tJitter (now m)) l in
  let losses := between lossOf (started (last silent t0)) (map now l) in
  (exists a d, told c "minJitterInMicroseconds" (N a) /\ told c "maxJitterInMicroseconds" (N d) /\
     told c "curJitterInMicroseconds" (N (tJitter (lastOf t0 silent l))) /\ (Exists (fun v => v <= 40000) js -> SmallestZ a js) /\ GreatestZ d js) /\
  (exists x y, figure c "minPacketLossPercentage" (100 * x) /\ Smallest x losses /\
     (0 < tExp (lastOf t0 silent l) -> Exists (fun v => 0 <= v)%Q losses -> figure c "maxPacketLossPercentage" (100 * y) /\ Greatest y losses)).
Proof.
  intros R NE JR. cbv zeta. destruct (whole junk t0 silent l R) as (A & B & S & T0 & T1 & RE & EE & LE & C). rewrite silent_core in C.
  assert (NE2: map now l <> []) by (destruct l; [congruence|intros H; inversion H]).
  destruct (C55_receiver_partial (last silent t0) (map now l) NE2 (r_truth _ _ _ R)) as (_ & _ & G3 & G4 & G5 & G6 & G7).
  unfold clock in C. rewrite <- C in G3, G4, G5, G6, G7. clear C. unfold toldOf. fold (state junk t0 silent l). set (s := state junk t0 silent l) in *.
  rewrite map_map in G5, G6. fold (lastOf t0 silent l) in G7. set (e := lastOf t0 silent l) in *.
  set (js := map (fun x => tJitter (now x)) l) in *.
  assert (JR': Forall (fun v => 0 <= v < 2147483648) js). { unfold js. apply Forall_map. exact JR. }
  assert (GX: GreatestZ (gmax (jit (core s))) js). { apply G6. eapply Forall_impl; [|exact JR']. intros v V. cbn beta in V. lia. }
  assert (ID: forall v, 0 <= v < 2147483648 -> toInt v = v). { intros v V. unfold toInt, s32, U32. rewrite Z.mod_small by lia. lia. }
  split.
  - exists (toInt (gmin (jit (core s)))), (gmax (jit (core s))).
    assert (DR: 0 <= gmax (jit (core s)) < 2147483648). { rewrite Forall_forall in JR'. apply JR'. apply GX. }
    assert (CR: 0 <= tJitter e < 2147483648).
    { rewrite Forall_forall in JR'. apply JR'. unfold js, e, lastOf. rewrite <- (map_map now tJitter). apply in_map. destruct (exists_last NE2) as (q & x & ->). rewrite last_last. apply in_or_app. right. left. reflexivity. }
    split; [apply told_in; [apply stat_nodup|unfold statFields; cbv zeta; apply in_or_app; right; cbn [In]; auto 14]|].
    split; [apply told_in; [apply stat_nodup|unfold statFields; cbv zeta; apply in_or_app; right; cbn [In]; rewrite (ID _ DR); auto 14]|].
    split; [apply told_in; [apply stat_nodup|unfold statFields; cbv zeta; apply in_or_app; right; cbn [In]; rewrite G7, (ID _ CR); auto 14]|].
    split; [|exact GX]. intros X. specialize (G5 X). rewrite ID; [exact G5|]. rewrite Forall_forall in JR'. apply JR'. apply G5.
  - exists (gmin (loss (core s))), (gmax (loss (core s))).
    split; [eapply figure_in; [unfold statFields; cbv zeta; apply in_or_app; right; cbn [In]; auto 14|reflexivity|reflexivity]|].
    split; [exact G3|]. intros EP X. specialize (G4 X). split; [|exact G4].
    pose proof (r_small _ _ _ R) as (SR & SE & _). fold e in SR, SE. destruct A as (A1 & A2 & A3 & A4).
    rewrite Z.mod_small in A2 by lia. rewrite Z.mod_small in A3 by lia.
    eapply figure_in; [unfold statFields; cbv zeta; apply in_or_app; right; cbn [In]; auto 14|reflexivity|].
    rewrite A2, A3. destruct (Z.eqb_spec (tExp e) 0); [lia|].
    match goal with |- ((if Qeq_bool ?f 1 then _ else _) == _)%Q => destruct (Qeq_bool f 1) eqn:Q1 end; [|reflexivity].
    exfalso. apply Qeq_bool_iff in Q1.
    assert (RP: 1 <= tRecv e).
    { pose proof (r_gaps _ _ _ R) as RG. rewrite Forall_forall in RG. destruct (exists_last NE) as (q & x & EL). unfold e, lastOf. rewrite EL, map_app. cbn [map]. rewrite last_last.
      apply (RG x). rewrite EL. apply in_or_app. right. left. reflexivity. }
    assert (PX: (0 < inject_Z (tRecv e) / inject_Z (tExp e))%Q).
    { apply Qlt_shift_div_l; [change 0%Q with (inject_Z 0); rewrite <- Zlt_Qlt; lia|]. rewrite Qmult_0_l. change 0%Q with (inject_Z 0). rewrite <- Zlt_Qlt. lia. }
    destruct (Qlt_b (1 - inject_Z (tRecv e) / inject_Z (tExp e)) 0) in Q1; lra.
Qed.

(* A recording: two measurements a second apart, 2 and then 5 packets, one of
   seven lost. *)
Definition exampleMoments : list moment :=
  [mkMo (mkTr 11000000 100 2 3 10) [20000]; mkMo (mkTr 12000000 300 6 7 30) [20000; 5000; 40000; 20000; 20000]].
Example recording_instance : recording 10000000 [] exampleMoments /\ exampleMoments <> [] /\ Forall (fun m => 0 <= tJitter (now m) < 2147483648) exampleMoments.
Proof.
  split; [|split; [discriminate|repeat constructor; cbn; lia]]. constructor.
  - cbn. lia.
  - cbn [map exampleMoments now history last]. unfold follows, U32. cbn. repeat split; try lia; discriminate.
  - repeat constructor; cbn; lia.
  - unfold U32. cbn. lia.
Qed.
Example told_instance : three (toldOf (0, 0) 10000000 [] exampleMoments) rateNames 800 1200 1600.
Proof.
  unfold three, rateNames. split; [|split]; (eapply figure_in; [unfold statFields; cbv zeta; match goal with |- In _ ((if ?b then _ else _) ++ _) => replace b with false by (vm_compute; reflexivity) end; cbn [app In]; auto|reflexivity|vm_compute; reflexivity]).
Qed.
(* Two sessions, one without description; the other has two streams, of which
   one has statistics. *)
Example listed_instance : let st := newStats (0, 0) (0, 0) None in
  let s := mkSe (Some [mkSub 6004 "video" "H264"; mkSub 6006 "audio" "OPUS"]%string) [(6006, st)] in
  NoDup (map fst (kept s)) /\ map fst (report [("a", mkSe None []); ("b", s)]%string) = ["b"%string].
Proof. split; [repeat constructor; intros []|reflexivity]. Qed.
(* A late stream. *)
Example late_instance : recording 10000000 [11000000] [mkMo (mkTr 12000000 100 2 3 10) [20000]].
Proof.
  constructor.
  - cbn. lia.
  - cbn [map now history last]. unfold follows, U32. cbn. repeat split; try lia; discriminate.
  - repeat constructor; cbn; lia.
  - unfold U32. cbn. lia.
Qed.
Print Assumptions C95_sessions_listed.
Print Assumptions C95_all_sessions_told_refuted.
Print Assumptions C95_mean_rate_below_greatest.
Print Assumptions C95_losses.
Print Assumptions C95_gaps_partial.
Print Assumptions C95_mean_gap_refuted.
Print Assumptions C95_nothing_lost_refuted.
Print Assumptions C95_loss_percentage_refuted.
Print Assumptions C95_late_stream_refuted.
Print Assumptions C95_earlier_data_refuted.
Print Assumptions C95_extremes_partial.
