(* Lemmas on the report of the receiver. *)
From Coq Require Import ZArith QArith Qround List Bool String Lia Lqa.
From Verif Require Import StatModel StatSpec StatProofs RrpModel RrpSpec.
Import ListNotations.
Local Open Scope list_scope.
Local Open Scope Z_scope.

Lemma last_from {A} : forall (l : list A) a b, last (b :: l) a = last l b.
Proof.
  induction l as [|x l IH]; intros a b; [reflexivity|]. change (last (b :: x :: l) a) with (last (x :: l) a). rewrite !IH. reflexivity.
Qed.
(* Silent measurements only move the time. *)
Lemma silent_run t0 junk : forall silent s a, at_ (core s) (started a) -> startT s = clock t0 -> kbps (core s) = kbps (rstat0 (0,0)) ->
  loss (core s) = loss (rstat0 (0,0)) -> jit (core s) = jit (rstat0 (0,0)) -> jitNow (core s) = 0 -> gapMin s = 0 -> gapMax s = 0 -> gaps s = junk ->
  let s' := measuredAll s (map (fun t => (clock t, None)) silent) in
  at_ (core s') (started (last silent a)) /\ startT s' = clock t0 /\ kbps (core s') = kbps (rstat0 (0,0)) /\ loss (core s') = loss (rstat0 (0,0)) /\
  jit (core s') = jit (rstat0 (0,0)) /\ jitNow (core s') = 0 /\ gapMin s' = 0 /\ gapMax s' = 0 /\ gaps s' = junk.
Proof.
  induction silent as [|t r IH]; intros s a A S K L J JN G1 G2 G3; [unfold measuredAll; cbn [map fold_left last]; tauto|].
  cbn [map]. unfold measuredAll. cbn [fold_left].
  rewrite last_from. apply (IH (measureAt s (clock t, None)) t); try assumption.
  destruct A as (A1 & A2 & A3 & A4). repeat split; assumption.
Qed.
Lemma watched_core : forall l s, core (measuredAll s (map seen l)) = measureAll (core s) (map shown (map now l)).
Proof. induction l as [|m r IH]; intros s; [reflexivity|]. cbn [map]. unfold measuredAll, measureAll. cbn [fold_left]. apply IH. Qed.
Lemma watched_start : forall l s, startT (measuredAll s (map seen l)) = startT s.
Proof. induction l as [|m r IH]; intros s; [reflexivity|]. cbn [map]. unfold measuredAll. cbn [fold_left]. fold (measuredAll (measureAt s (seen m)) (map seen r)). rewrite IH. reflexivity. Qed.

Lemma inj_pos a b : a < b -> (0 < inject_Z (b - a))%Q.
Proof. intros. change 0%Q with (inject_Z 0). rewrite <- Zlt_Qlt. lia. Qed.
Lemma inj_nonneg z : 0 <= z -> (0 <= inject_Z z)%Q.
Proof. intros. change 0%Q with (inject_Z 0). rewrite <- Zle_Qle. lia. Qed.

Lemma feed_max g v : (gmax g <= gmax (feed Qlt_b g v) /\ v <= gmax (feed Qlt_b g v))%Q.
Proof. unfold feed. cbn [gmax]. destruct (Qlt_b (gmax g) v) eqn:E; [apply Qlt_b_true in E|apply Qlt_b_false in E]; split; lra. Qed.
Lemma feed_min g v : (gmin (feed Qlt_b g v) <= gmin g /\ gmin (feed Qlt_b g v) <= v)%Q.
Proof. unfold feed. cbn [gmin]. destruct (Qlt_b v (gmin g)) eqn:E; [apply Qlt_b_true in E|apply Qlt_b_false in E]; split; lra. Qed.

(* The rate and the loss of an interval, times its length. *)
Lemma rate_times a b : tTime a < tTime b -> (rateOf a b * inject_Z (tTime b - tTime a) == 8 * (tBytes b - tBytes a) * 1000000)%Q.
Proof.
  intros H. unfold rateOf. destruct (Z.eqb_spec (tTime b) (tTime a)); [lia|]. pose proof (inj_pos _ _ H) as P. field. intros C. rewrite C in P. lra.
Qed.
Lemma loss_times a b : tExp a < tExp b -> (lossOf a b * inject_Z (tExp b - tExp a) == inject_Z (tExp b - tExp a) - inject_Z (tRecv b - tRecv a))%Q.
Proof.
  intros H. unfold lossOf. destruct (Z.eqb_spec (tExp b) (tExp a)); [lia|]. pose proof (inj_pos _ _ H) as P. field. intros C. rewrite C in P. lra.
Qed.

(* What the extremes say of the averages. *)
Record bounds (t0 : Z) (s : rstat) (a : truth) : Prop := {
  b_rate0 : (0 <= gmax (kbps s))%Q;
  b_rate : (8 * tBytes a * 1000000 <= gmax (kbps s) * inject_Z (tTime a - t0))%Q;
  b_loss0 : (0 <= gmax (loss s))%Q;
  b_loss : (inject_Z (tExp a) - inject_Z (tRecv a) <= gmax (loss s) * inject_Z (tExp a))%Q;
  b_least : (gmin (loss s) <= 1)%Q /\ ((gmin (loss s) <= 0)%Q \/ (gmin (loss s) * inject_Z (tExp a) <= inject_Z (tExp a) - inject_Z (tRecv a))%Q)
}.
Lemma bounds_step t0 s a b : at_ s a -> follows a b -> tTime a < tTime b -> t0 <= tTime a -> 0 <= tExp a -> bounds t0 s a -> bounds t0 (measure s (shown b)) b.
Proof.
  intros A F T T0 E0 [B1 B2 B3 B4 (B5 & B6)]. destruct (measure_spec s a b A F) as (_ & (v & M2 & M3) & M4 & _ & _).
  destruct F as (F1 & F2 & F3 & F4).
  pose proof (feed_max (kbps s) v) as (K1 & K2). rewrite <- M2 in K1, K2.
  pose proof (feed_max (loss s) (lossOf a b)) as (L1 & L2). rewrite <- M4 in L1, L2.
  pose proof (feed_min (loss s) (lossOf a b)) as (N1 & N2). rewrite <- M4 in N1, N2.
  set (s' := measure s (shown b)) in *.
  constructor.
  - lra.
  - pose proof (rate_times a b T) as R. pose proof (inj_pos _ _ T) as P.
    replace (tTime b - t0) with ((tTime a - t0) + (tTime b - tTime a)) by lia. rewrite inject_Z_plus.
    pose proof (Qmult_le_compat_r _ _ _ K1 (inj_nonneg (tTime a - t0) ltac:(lia))).
    assert (V: (rateOf a b <= gmax (kbps s'))%Q) by lra.
    pose proof (Qmult_le_compat_r _ _ _ V (Qlt_le_weak _ _ P)). lra.
  - lra.
  - replace (tExp b) with (tExp a + (tExp b - tExp a)) by lia. replace (tRecv b) with (tRecv a + (tRecv b - tRecv a)) by lia.
    rewrite !(inject_Z_plus (tExp a)), !(inject_Z_plus (tRecv a)).
    pose proof (Qmult_le_compat_r _ _ _ L1 (inj_nonneg (tExp a) E0)).
    pose proof (inj_nonneg (tRecv b - tRecv a) ltac:(lia)).
    destruct (Z.eq_dec (tExp b) (tExp a)) as [E|E].
    + rewrite E, Z.sub_diag. change (inject_Z 0) with 0%Q. lra.
    + pose proof (loss_times a b ltac:(lia)) as R. pose proof (inj_pos (tExp a) (tExp b) ltac:(lia)) as P.
      pose proof (Qmult_le_compat_r _ _ _ L2 (Qlt_le_weak _ _ P)). lra.
  - split; [lra|]. destruct B6 as [B6|B6]; [left; lra|].
    destruct (Z.eq_dec (tExp b) (tExp a)) as [E|E].
    + left. unfold lossOf in N2. rewrite E, Z.eqb_refl in N2. lra.
    + right. replace (tExp b) with (tExp a + (tExp b - tExp a)) by lia. replace (tRecv b) with (tRecv a + (tRecv b - tRecv a)) by lia.
      rewrite !(inject_Z_plus (tExp a)), !(inject_Z_plus (tRecv a)).
      pose proof (loss_times a b ltac:(lia)) as R. pose proof (inj_pos (tExp a) (tExp b) ltac:(lia)) as P.
      pose proof (Qmult_le_compat_r _ _ _ N1 (inj_nonneg (tExp a) E0)). pose proof (Qmult_le_compat_r _ _ _ N2 (Qlt_le_weak _ _ P)). lra.
Qed.
Lemma bounds_run t0 : forall l s a, at_ s a -> history a l -> increasing (tTime a) (map tTime l) -> t0 <= tTime a -> 0 <= tExp a -> bounds t0 s a ->
  let s' := measureAll s (map shown l) in at_ s' (last l a) /\ bounds t0 s' (last l a) /\ t0 <= tTime (last l a) /\ 0 <= tExp (last l a) /\
  (l <> [] -> tTime a < tTime (last l a)) /\ tRecv a <= tRecv (last l a) /\ tExp a <= tExp (last l a).
Proof.
  induction l as [|b r IH]; intros s a A H I T0 E0 B; [unfold measureAll; cbn [map fold_left last]; split; [exact A|]; split; [exact B|]; split; [exact T0|]; split; [exact E0|]; split; [congruence|]; lia|].
  cbn [history] in H. destruct H as [F H]. cbn [map increasing] in I. destruct I as [I1 I].
  destruct (measure_spec s a b A F) as (M1 & _). pose proof F as (F1 & F2 & F3 & F4).
  rewrite last_from. cbn [map]. unfold measureAll. cbn [fold_left]. fold (measureAll (measure s (shown b)) (map shown r)).
  destruct (IH _ b M1 H I ltac:(lia) ltac:(lia) (bounds_step t0 s a b A F I1 T0 E0 B)) as (X1 & X2 & X3 & X4 & X5 & X6 & X7).
  split; [exact X1|]. split; [exact X2|]. split; [exact X3|]. split; [exact X4|]. split; [|lia].
  intros _. destruct r as [|c r]; [exact I1|]. specialize (X5 ltac:(discriminate)). lia.
Qed.
(* The least rate, when every measurement saw something. *)
Lemma least_run t0 : forall l s a, at_ s a -> history a l -> increasing (tTime a) (map tTime l) -> t0 <= tTime a ->
  (gmin (kbps s) * inject_Z (tTime a - t0) <= 8 * tBytes a * 1000000)%Q ->
  let s' := measureAll s (map shown l) in (gmin (kbps s') * inject_Z (tTime (last l a) - t0) <= 8 * tBytes (last l a) * 1000000)%Q.
Proof.
  induction l as [|b r IH]; intros s a A H I T0 B; [exact B|].
  cbn [history] in H. destruct H as [F H]. cbn [map increasing] in I. destruct I as [I1 I].
  destruct (measure_spec s a b A F) as (M1 & (v & M2 & M3) & _). pose proof F as (F1 & F2 & F3 & F4).
  rewrite last_from. cbn [map]. unfold measureAll. cbn [fold_left]. fold (measureAll (measure s (shown b)) (map shown r)).
  apply IH; try assumption; try lia.
  pose proof (feed_min (kbps s) v) as (N1 & N2). rewrite <- M2 in N1, N2. set (s' := measure s (shown b)) in *.
  replace (tTime b - t0) with ((tTime a - t0) + (tTime b - tTime a)) by lia. rewrite inject_Z_plus.
  pose proof (rate_times a b I1) as R. pose proof (inj_pos _ _ I1) as P.
  pose proof (Qmult_le_compat_r _ _ _ N1 (inj_nonneg (tTime a - t0) ltac:(lia))).
  assert (V: (gmin (kbps s') <= rateOf a b)%Q) by lra.
  pose proof (Qmult_le_compat_r _ _ _ V (Qlt_le_weak _ _ P)). lra.
Qed.

(* Members of the object. *)
Lemma told_in (c : fields) k v : NoDup (map fst c) -> In (k, v) c -> told c k v.
Proof.
  intros ND H. split; [exact H|]. intros w W. induction c as [|[k' x] c IH]; [destruct H|]. cbn [map fst] in ND. inversion ND as [|? ? N1 N2]; subst.
  destruct H as [H|H], W as [W|W].
  - congruence.
  - injection H as -> ->. exfalso. apply N1. apply (in_map fst) in W. exact W.
  - injection W as -> ->. exfalso. apply N1. apply (in_map fst) in H. exact H.
  - apply IH; assumption.
Qed.
Definition statNames : list string :=
  ["minBitrateInKbps"; "maxBitRateInKbps"; "avgBitRateInKbps"; "minPacketLossPercentage"; "maxPacketLossPercentage"; "avgPacketLossPercentage";
   "minInterPacketGapInMiliseconds"; "maxInterPacketGapInMiliseconds"; "avgInterPacketGapInMiliseconds";
   "minJitterInMicroseconds"; "maxJitterInMicroseconds"; "curJitterInMicroseconds"]%string.
Lemma stat_names s : map fst (statFields s) = statNames.
Proof. unfold statFields. cbv zeta. destruct (Qeq_bool (gmax (kbps (core s))) 0); reflexivity. Qed.
Lemma nodup_strings (l : list string) : (fix f (l : list string) := match l with [] => true | x :: r => negb (existsb (String.eqb x) r) && f r end) l = true -> NoDup l.
Proof.
  induction l as [|x r IH]; intros H; [constructor|]. apply andb_true_iff in H. destruct H as [H1 H2]. constructor; [|apply IH; exact H2].
  intros C. apply negb_true_iff in H1. assert (E: existsb (String.eqb x) r = true) by (apply existsb_exists; exists x; split; [exact C|apply String.eqb_refl]). congruence.
Qed.
Lemma stat_nodup s : NoDup (map fst (statFields s)).
Proof. rewrite stat_names. apply nodup_strings. reflexivity. Qed.
Lemma figure_in s k v x q : In (k, v) (statFields s) -> amount v = Some x -> (x == q)%Q -> figure (statFields s) k q.
Proof. intros H A E. exists v, x. split; [apply told_in; [apply stat_nodup|exact H]|]. split; assumption. Qed.

(* The time since the start. *)
Lemma elapsed t0 t : t0 <= t < t0 + 4000000000 * 1000000 ->
  (inject_Z (u32 (t / 1000000 - t0 / 1000000)) + inject_Z (t mod 1000000 - t0 mod 1000000) / inject_Z 1000000 == inject_Z (t - t0) / inject_Z 1000000)%Q.
Proof.
  intros H.
  assert (SD : u32 (t / 1000000 - t0 / 1000000) = t / 1000000 - t0 / 1000000).
  { unfold u32, U32. apply Z.mod_small. pose proof (Z.div_le_mono t0 t 1000000).
    pose proof (Z.div_mod t0 1000000). pose proof (Z.mod_pos_bound t0 1000000). pose proof (Z.div_mod t 1000000). pose proof (Z.mod_pos_bound t 1000000). lia. }
  rewrite SD. replace (t - t0) with ((t / 1000000 - t0 / 1000000) * 1000000 + (t mod 1000000 - t0 mod 1000000)) by (pose proof (Z.div_mod t0 1000000); pose proof (Z.div_mod t 1000000); lia).
  rewrite inject_Z_plus, inject_Z_mult. field.
Qed.

Lemma increasing_app : forall l1 l2 a, increasing a (l1 ++ l2) -> increasing a l1 /\ increasing (last l1 a) l2.
Proof.
  induction l1 as [|b r IH]; intros l2 a H; [split; [exact I|exact H]|]. cbn [app increasing] in H. destruct H as [H1 H2].
  destruct (IH _ _ H2) as (X & Y). rewrite last_from. split; [split; assumption|exact Y].
Qed.
Lemma increasing_last : forall l a, increasing a l -> a <= last l a /\ (l <> [] -> a < last l a).
Proof.
  induction l as [|b r IH]; intros a H; [split; [cbn; lia|congruence]|]. destruct H as [H1 H2]. rewrite last_from. destruct (IH _ H2) as (X & _). split; [lia|]. intros _. lia.
Qed.

Definition state (junk : Z * Z) (t0 : Z) (silent : list Z) (l : list moment) : stats := measuredAll (newStats junk (clock t0) None) (watched silent l).
Lemma measured_app a b s : measuredAll s (a ++ b) = measuredAll (measuredAll s a) b.
Proof. unfold measuredAll. apply fold_left_app. Qed.
Lemma whole junk t0 silent l : recording t0 silent l ->
  let s := state junk t0 silent l in let e := lastOf t0 silent l in
  at_ (core s) e /\ bounds t0 (core s) e /\ startT s = clock t0 /\ t0 <= tTime e /\ (silent <> [] \/ l <> [] -> t0 < tTime e) /\
  0 <= tRecv e /\ 0 <= tExp e /\
  (silent = [] -> (gmin (kbps (core s)) * inject_Z (tTime e - t0) <= 8 * tBytes e * 1000000)%Q) /\
  core s = measureAll (core (measuredAll (newStats junk (clock t0) None) (map (fun t => (clock t, None)) silent))) (map shown (map now l)).
Proof.
  intros [R1 R2 R3 R4]. unfold state, watched. rewrite measured_app.
  destruct (increasing_app _ _ _ R1) as (I1 & I2).
  destruct (silent_run t0 junk silent (newStats junk (clock t0) None) t0 (started_at t0) eq_refl eq_refl eq_refl eq_refl eq_refl eq_refl eq_refl eq_refl)
    as (S1 & S2 & S3 & S4 & S5 & S6 & S7 & S8 & S9).
  set (s1 := measuredAll (newStats junk (clock t0) None) (map (fun t => (clock t, None)) silent)) in *.
  cbv zeta. rewrite watched_core, watched_start.
  destruct (increasing_last _ _ I1) as (T1 & T2).
  assert (B: bounds t0 (core s1) (started (last silent t0))).
  { constructor; rewrite ?S3, ?S4; cbn [tBytes tExp tRecv started]; change (gmax (kbps (rstat0 (0,0)))) with 0%Q; change (gmax (loss (rstat0 (0,0)))) with 0%Q; change (gmin (loss (rstat0 (0,0)))) with 1%Q;
      change (inject_Z 0) with 0%Q; try lra. }
  assert (I2': increasing (tTime (started (last silent t0))) (map tTime (map now l))) by (rewrite map_map; exact I2).
  destruct (bounds_run t0 (map now l) (core s1) _ S1 R2 I2' T1 ltac:(cbn; lia) B) as (X1 & X2 & X3 & X4 & X5 & X6 & X7).
  fold (lastOf t0 silent l) in X1, X2, X3, X4, X5, X6, X7.
  split; [exact X1|]. split; [exact X2|]. split; [exact S2|]. split; [exact X3|]. split.
  { intros [NE|NE].
    - specialize (T2 NE). destruct l as [|m l]; [exact T2|]. assert (NE2: map now (m :: l) <> []) by discriminate. specialize (X5 NE2). cbn [tTime started] in X5. lia.
    - assert (NE2: map now l <> []) by (destruct l; [congruence|discriminate]). specialize (X5 NE2). cbn [tTime started] in X5. lia. }
  split; [exact X6|]. split; [exact X7|]. split; [|reflexivity].
  intros ->. apply (least_run t0 (map now l) (core s1) _ S1 R2 I2' T1). cbn [tTime started last tBytes]. rewrite Z.sub_diag. change (inject_Z 0) with 0%Q. lra.
Qed.
