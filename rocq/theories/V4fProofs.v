From Coq Require Import ZArith List Bool Arith Lia Permutation.
From Verif Require Import NamesModel V4lModel V4fModel V4fSpec.
Import ListNotations.
Local Open Scope Z_scope.
Local Open Scope list_scope.

Lemma int32_id : forall z, - 2 ^ 31 <= z < 2 ^ 31 -> int32 z = z.
Proof. intros z H. unfold int32. rewrite Z.mod_small by lia. lia. Qed.

(* The meter over a list of times *)
Fixpoint meterAt (m : meter) (last : Z) (l : list Z) : meter :=
  match l with [] => m | t :: r => meterAt (tick m (t - last)) t r end.

Lemma rounds_meter : forall l s s' o, rounds s l = Some (s', o) -> meterOf s' = meterAt (meterOf s) (lastT s) (times o).
Proof.
  induction l as [|[f r] l IH]; intros s s' o H; cbn [rounds] in H.
  - injection H as <- <-. reflexivity.
  - unfold doProcessFrame in H. destruct (st (ccam s)) eqn:S1.
    3: destruct (getFrame (ccam s) (queue s) f r) as [|q f1|q f1] eqn:G; [discriminate| |].
    all: try (destruct (rounds s l) as [[s2 o2]|] eqn:R; [|discriminate]; injection H as <- <-; cbn [times]; exact (IH _ _ _ R)).
    + match type of H with context [rounds ?x l] => destruct (rounds x l) as [[s2 o2]|] eqn:R; [|discriminate] end.
      injection H as <- <-. cbn [times]. exact (IH _ _ _ R).
    + match type of H with context [rounds ?x l] => destruct (rounds x l) as [[s2 o2]|] eqn:R; [|discriminate] end.
      injection H as <- <-. cbn [times stamp pts meterAt]. rewrite (IH _ _ _ R). cbn [lastT]. f_equal.
      unfold meterOf, cdur. cbn [ccnt csum ccam dur setDur]. destruct (tick _ _). reflexivity.
Qed.

(* Averages *)
Lemma avg_low : forall s a d, 0 <= a -> 128 * a <= s -> a <= d -> 128 * a <= s - s / 128 + d.
Proof.
  intros s a d A S1 D. pose proof (Z.div_mod s 128 ltac:(lia)) as E. pose proof (Z.mod_pos_bound s 128 ltac:(lia)) as B. lia.
Qed.
Lemma avg_high : forall s b d, 0 <= s -> s <= 128 * b + 127 -> d <= b -> s - s / 128 + d <= 128 * b + 127.
Proof.
  intros s b d A S1 D. pose proof (Z.div_mod s 128 ltac:(lia)) as E. pose proof (Z.mod_pos_bound s 128 ltac:(lia)) as B. lia.
Qed.

Definition minv (a b d0 : Z) (m : meter) : Prop :=
  0 <= cnt m <= 129
  /\ (cnt m <= 129 -> 1 <= cnt m -> (cnt m - 1) * a <= sum m <= (cnt m - 1) * b + 127)
  /\ (cnt m <= 128 -> 1 <= cnt m -> sum m <= (cnt m - 1) * b)
  /\ (cnt m = 0 -> sum m = 0)
  /\ (mdur m = d0 \/ a <= mdur m <= b).

Lemma tick_inv : forall a b d0 m d, 0 <= a -> b < 2 ^ 31 -> 0 <= d0 < 2 ^ 31 -> (1 <= cnt m -> a <= d <= b) ->
  minv a b d0 m -> minv a b d0 (tick m d) /\ 1 <= cnt (tick m d).
Proof.
  intros a b d0 m d A B D0 D (C & S1 & S2 & Z0 & M).
  unfold tick, getAvg. destruct (Z.leb_spec (cnt m) 128) as [L|L].
  - rewrite int32_id by lia. rewrite Z.sub_diag. change (Z.abs 0) with 0.
    rewrite Z.quot_div_nonneg by lia. pose proof (Z.div_pos (mdur m) 128 ltac:(lia) ltac:(lia)) as Q.
    destruct (Z.ltb_spec (mdur m / 128) 0) as [X|_]; [lia|]. cbn [cnt sum mdur].
    unfold minv. cbn [cnt sum mdur]. destruct (Z.ltb_spec 0 (cnt m)) as [P|P].
    + specialize (D ltac:(lia)). specialize (S1 ltac:(lia) ltac:(lia)). specialize (S2 ltac:(lia) ltac:(lia)).
      repeat split; try lia; nia.
    + assert (E : cnt m = 0) by lia. rewrite (Z0 E). rewrite E. repeat split; try lia.
  - assert (E : cnt m = 129) by lia. specialize (S1 ltac:(lia) ltac:(lia)). specialize (D ltac:(lia)). rewrite E in S1.
    assert (P : 0 <= sum m) by lia.
    rewrite (Z.quot_div_nonneg (sum m)) by lia.
    pose proof (avg_low (sum m) a d A ltac:(lia) ltac:(lia)) as Lo.
    pose proof (avg_high (sum m) b d P ltac:(lia) ltac:(lia)) as Hi.
    set (s := sum m - sum m / 128 + d) in *. rewrite (Z.quot_div_nonneg s) by lia.
    assert (Av : a <= s / 128 <= b).
    { split; [apply Z.div_le_lower_bound; lia|]. assert (s / 128 < b + 1) by (apply Z.div_lt_upper_bound; lia). lia. }
    rewrite int32_id by lia.
    assert (Q : forall x, (x = d0 \/ a <= x <= b) -> minv a b d0 (mkM (cnt m) s x)).
    { intros x X. unfold minv. cbn [cnt sum mdur]. rewrite E. repeat split; try lia. }
    destruct (Z.quot (mdur m) 128 <? Z.abs (mdur m - s / 128)); cbn [cnt sum mdur]; split; auto; lia.
Qed.

Lemma meterAt_inv : forall a b d0 l m last, 0 <= a -> b < 2 ^ 31 -> 0 <= d0 < 2 ^ 31 ->
  minv a b d0 m -> spaced a b l -> (1 <= cnt m -> match l with t :: _ => a <= t - last <= b | [] => True end) ->
  minv a b d0 (meterAt m last l).
Proof.
  intros a b d0. induction l as [|t l IH]; intros m last A B D0 M S1 F; cbn [meterAt]; [exact M|].
  destruct (tick_inv a b d0 m (t - last) A B D0 F M) as (M1 & C1).
  apply IH; auto.
  - destruct l; [exact Logic.I|]. apply S1.
  - intros _. destruct l; [exact Logic.I|]. apply S1.
Qed.

(* Locking on *)
Definition locked (d : Z) (d0 : Z) (m : meter) : Prop :=
  cnt m = 129 /\ 128 * d <= sum m <= 128 * d + 127 /\ (mdur m = d \/ (mdur m = d0 /\ Z.abs (d0 - d) <= d0 / 128)).

Lemma tick_avg : forall m d, cnt m = 129 -> 0 <= sum m -> 0 <= mdur m -> 0 <= d -> sum m - sum m / 128 + d < 128 * 2 ^ 31 ->
  let s := sum m - sum m / 128 + d in
  tick m d = mkM 129 s (if mdur m / 128 <? Z.abs (mdur m - s / 128) then s / 128 else mdur m).
Proof.
  intros m d C S1 M D B s. unfold tick, getAvg. rewrite C. cbn [Z.leb Z.compare Pos.compare Pos.compare_cont].
  change (129 <=? 128) with false. cbv iota.
  rewrite (Z.quot_div_nonneg (sum m)) by lia. fold s.
  assert (0 <= s). { unfold s. pose proof (Z.div_le_upper_bound (sum m) 128 (sum m) ltac:(lia) ltac:(lia)). lia. }
  rewrite !Z.quot_div_nonneg by lia.
  pose proof (Z.div_pos s 128 ltac:(lia) ltac:(lia)). assert (s / 128 < 2 ^ 31) by (apply Z.div_lt_upper_bound; unfold s in *; lia).
  rewrite int32_id by lia. destruct (mdur m / 128 <? Z.abs (mdur m - s / 128)); reflexivity.
Qed.

Lemma lock_tick : forall d d0 m, 0 <= d < 2 ^ 31 -> 0 <= mdur m -> cnt m = 129 -> 128 * d <= sum m <= 128 * d + 127 ->
  tick m d = mkM 129 (sum (tick m d)) (if mdur m / 128 <? Z.abs (mdur m - d) then d else mdur m)
  /\ 128 * d <= sum (tick m d) <= 128 * d + 127 /\ (mdur m = d0 \/ mdur m = d -> locked d d0 (tick m d)).
Proof.
  intros d d0 m D M C S1.
  pose proof (avg_low (sum m) d d ltac:(lia) ltac:(lia) ltac:(lia)) as Lo.
  pose proof (avg_high (sum m) d d ltac:(lia) ltac:(lia) ltac:(lia)) as Hi.
  pose proof (tick_avg m d C ltac:(lia) M ltac:(lia) ltac:(lia)) as T. cbv zeta in T.
  set (s := sum m - sum m / 128 + d) in *.
  assert (E : s / 128 = d). { symmetry. apply Z.div_unique with (r := s - 128 * d); lia. }
  rewrite E in T. rewrite T. cbn [sum cnt mdur]. split; [reflexivity|]. split; [lia|].
  intros X. unfold locked. cbn [cnt sum mdur]. split; [reflexivity|]. split; [lia|].
  destruct (Z.ltb_spec (mdur m / 128) (Z.abs (mdur m - d))) as [Y|Y]; [auto|].
  destruct X as [X|X]; [|auto]. right. rewrite X in *. split; [reflexivity|lia].
Qed.

Lemma meterAt_regular_fill : forall n x d m last k, 0 <= mdur m < 2 ^ 31 -> cnt m = k -> 1 <= k -> k + Z.of_nat (S n) <= 129 -> x - last = d ->
  meterAt m last (regular x d n) = mkM (k + Z.of_nat (S n)) (sum m + d * Z.of_nat (S n)) (mdur m).
Proof.
  induction n as [|n IH]; intros x d m last k M C K B E.
  - cbn [regular meterAt]. rewrite E. unfold tick, getAvg. rewrite C. destruct (Z.leb_spec k 128); [|lia].
    destruct (Z.ltb_spec 0 k); [|lia]. rewrite int32_id by lia. rewrite Z.sub_diag. change (Z.abs 0) with 0.
    rewrite Z.quot_div_nonneg by lia. pose proof (Z.div_pos (mdur m) 128 ltac:(lia) ltac:(lia)).
    destruct (Z.ltb_spec (mdur m / 128) 0); [lia|]. f_equal; lia.
  - cbn [regular meterAt]. rewrite E.
    assert (T : tick m d = mkM (k + 1) (sum m + d) (mdur m)).
    { unfold tick, getAvg. rewrite C. destruct (Z.leb_spec k 128); [|lia].
      destruct (Z.ltb_spec 0 k); [|lia]. rewrite int32_id by lia. rewrite Z.sub_diag. change (Z.abs 0) with 0.
      rewrite Z.quot_div_nonneg by lia. pose proof (Z.div_pos (mdur m) 128 ltac:(lia) ltac:(lia)).
      destruct (Z.ltb_spec (mdur m / 128) 0); [lia|]. reflexivity. }
    rewrite T. rewrite (IH (x + d) d _ x (k + 1)); cbn [mdur cnt sum]; try lia. f_equal; lia.
Qed.

Lemma meterAt_app : forall l1 l2 m last, meterAt m last (l1 ++ l2) = meterAt (meterAt m last l1) (List.last l1 last) l2.
Proof.
  induction l1 as [|t l1 IH]; intros l2 m last; [reflexivity|]. cbn [List.app meterAt]. rewrite IH. f_equal.
  destruct l1; [reflexivity|]. symmetry. clear. cbn [List.last]. revert z t last. induction l1 as [|y l1 IH]; intros; [reflexivity|]. apply IH.
Qed.

Lemma regular_split : forall n k x d, regular x d (n + S k) = regular x d n ++ regular (x + d * Z.of_nat (S n)) d k.
Proof.
  induction n as [|n IH]; intros k x d.
  - cbn [Nat.add regular List.app]. do 2 f_equal. lia.
  - cbn [Nat.add regular List.app]. rewrite IH. do 3 f_equal. lia.
Qed.
Lemma last_regular : forall n x d z, List.last (regular x d n) z = x + d * Z.of_nat n.
Proof.
  induction n as [|n IH]; intros x d z; [cbn; lia|]. cbn [regular]. destruct (regular (x + d) d n) eqn:E.
  - destruct n; discriminate.
  - transitivity (List.last (regular (x + d) d n) z); [rewrite E; reflexivity|]. rewrite IH. lia.
Qed.

Lemma meterAt_locked : forall n x d d0 m last, 0 <= d < 2 ^ 31 -> 0 <= d0 -> locked d d0 m -> x - last = d ->
  locked d d0 (meterAt m last (regular x d n)).
Proof.
  induction n as [|n IH]; intros x d d0 m last D D0 L E; cbn [regular meterAt]; rewrite E; destruct L as (C & S1 & M);
    destruct (lock_tick d d0 m D ltac:(lia) C S1) as (_ & _ & K).
  - apply K. tauto.
  - apply IH; auto; [apply K; tauto|lia].
Qed.

(* From fresh: the first time is not counted, then 128 durations, then one
   more frame *)
Lemma meterAt_lock : forall n x d m last, 0 <= d < 2 ^ 31 -> 0 <= mdur m < 2 ^ 31 -> cnt m = 0 -> sum m = 0 ->
  locked d (mdur m) (meterAt m last (regular x d (S (128 + n)))).
Proof.
  intros n x d m last D M C S0.
  change (regular x d (S (128 + n))) with (x :: regular (x + d) d (128 + n)). cbn [meterAt].
  assert (T : tick m (x - last) = mkM 1 0 (mdur m)).
  { unfold tick, getAvg. rewrite C, S0. change (0 <=? 128) with true. change (0 <? 0) with false. cbv iota.
    rewrite int32_id by lia. rewrite Z.sub_diag. change (Z.abs 0) with 0.
    rewrite Z.quot_div_nonneg by lia. pose proof (Z.div_pos (mdur m) 128 ltac:(lia) ltac:(lia)).
    destruct (Z.ltb_spec (mdur m / 128) 0); [lia|]. reflexivity. }
  rewrite T. replace (128 + n)%nat with (127 + S n)%nat by lia. rewrite regular_split, meterAt_app.
  rewrite (meterAt_regular_fill 127 (x + d) d (mkM 1 0 (mdur m)) x 1); cbn [cnt sum mdur]; try lia.
  rewrite last_regular. change (1 + Z.of_nat 128) with 129. change (Z.of_nat 128) with 128. rewrite Z.add_0_l.
  set (m1 := mkM 129 (d * 128) (mdur m)). set (y := x + d + d * 128).
  assert (L1 : locked d (mdur m) (tick m1 d)).
  { destruct (lock_tick d (mdur m) m1 D ltac:(unfold m1; cbn [mdur]; lia) eq_refl ltac:(unfold m1; cbn [sum]; lia)) as (_ & _ & K). apply K. left. reflexivity. }
  destruct n as [|n]; cbn [regular meterAt].
  - replace (y - (x + d + d * Z.of_nat 127)) with d by (unfold y; lia). exact L1.
  - replace (y - (x + d + d * Z.of_nat 127)) with d by (unfold y; lia). apply meterAt_locked; [exact D|lia|exact L1|lia].
Qed.

(* Settling from any sum *)
Definition away (s d : Z) : Z := Z.max 0 (Z.max (s - (128 * d + 127)) (128 * d - s)).
Lemma settle_step : forall s d, 0 <= s -> 0 <= d ->
  let s' := s - s / 128 + d in 0 <= s' /\ s' <= Z.max s (128 * d + 127) /\ (away s' d <= away s d - 1 \/ away s' d = 0).
Proof.
  intros s d S0 D s'. pose proof (Z.div_mod s 128 ltac:(lia)) as E. pose proof (Z.mod_pos_bound s 128 ltac:(lia)) as B.
  unfold s', away. set (q := s / 128) in *. set (r := s mod 128) in *. lia.
Qed.

Lemma meterAt_settle : forall n x d m last, 0 <= d < 2 ^ 29 -> 0 <= mdur m -> cnt m = 129 -> 0 <= sum m < 2 ^ 37 -> x - last = d ->
  away (sum m) d <= Z.of_nat n ->
  let m' := meterAt m last (regular x d n) in
  cnt m' = 129 /\ 128 * d <= sum m' <= 128 * d + 127 /\ Z.abs (mdur m' - d) <= mdur m' / 128.
Proof.
  induction n as [|n IH]; intros x d m last D M C S1 E A; cbn [regular meterAt]; rewrite E; cbv zeta.
  - assert (W : 128 * d <= sum m <= 128 * d + 127) by (unfold away in A; lia).
    destruct (lock_tick d d m ltac:(lia) M C W) as (T & T2 & _). rewrite T. cbn [cnt sum mdur].
    split; [reflexivity|]. split; [exact T2|].
    destruct (Z.ltb_spec (mdur m / 128) (Z.abs (mdur m - d))); [|lia]. pose proof (Z.div_pos d 128). lia.
  - destruct (settle_step (sum m) d ltac:(lia) ltac:(lia)) as (P1 & P2 & P3).
    assert (B : sum m - sum m / 128 + d < 128 * 2 ^ 31) by (pose proof (Z.div_pos (sum m) 128); lia).
    pose proof (tick_avg m d C ltac:(lia) M ltac:(lia) B) as T. cbv zeta in T.
    set (s := sum m - sum m / 128 + d) in *.
    rewrite T. apply IH; try exact D; cbn [cnt sum mdur]; try reflexivity; try lia.
    pose proof (Z.div_pos s 128 ltac:(lia) ltac:(lia)). destruct (_ <? _); lia.
Qed.

(* Frames and buffers *)
Lemma existsb_in : forall i q, existsb (Nat.eqb i) q = true <-> In i q.
Proof.
  intros i q. rewrite existsb_exists. split.
  - intros (x & X & E). apply Nat.eqb_eq in E. now subst.
  - intros H. exists i. split; [exact H|apply Nat.eqb_refl].
Qed.
Lemma without_perm : forall i q, In i q -> Permutation q (i :: without i q).
Proof.
  intros i. induction q as [|x q IH]; intros H; [destruct H|]. cbn [without]. destruct (Nat.eqb_spec x i) as [->|N].
  - apply Permutation_refl.
  - destruct H as [->|H]; [congruence|]. eapply Permutation_trans; [apply perm_skip, IH, H|apply perm_swap].
Qed.

Lemma process_capture : forall s f r, st (ccam s) = SCapture ->
  doProcessFrame s f r =
  match getFrame (ccam s) (queue s) f r with
  | Overrun => Broken
  | NoFrame q f1 => Done (mkC (ccam s) (ccnt s) (csum s) (nextWall s r) (lastT s) q) (stamp f1 (t3 r)) false (int32 (nextWall s r - t3 r))
  | Frame q f1 =>
    let m := tick (meterOf s) (t3 r - lastT s) in
    Done (mkC (setDur (ccam s) (mdur m)) (cnt m) (sum m) (nextWall s r) (t3 r) q) (stamp f1 (t3 r)) true (int32 (nextWall s r - t3 r))
  end.
Proof. intros s f r H. unfold doProcessFrame. rewrite H. reflexivity. Qed.

(* the buffers after a round *)
Lemma process_queue : forall s f r s' f' ok ret, doProcessFrame s f r = Done s' f' ok ret ->
  (loses s r /\ st (ccam s) = SCapture /\ ok = false /\ exists i, Permutation (queue s) (i :: queue s'))
  \/ (~ (loses s r /\ st (ccam s) = SCapture) /\ Permutation (queue s) (queue s') /\ (ok = true -> queue s <> [])).
Proof.
  intros s f r s' f' ok ret H. unfold doProcessFrame in H. destruct (st (ccam s)) eqn:S1.
  1,2,4: injection H as <- <- <- <-; right; split; [intros [_ X]; discriminate|]; split; [apply Permutation_refl|discriminate].
  unfold getFrame in H. destruct (rSel r) eqn:Se.
  1,2: injection H as <- <- <- <-; right; cbn [queue]; split; [intros [(X & _) _]; congruence|]; split; [apply Permutation_refl|discriminate].
  unfold readFrame in H. destruct (rDq r) as [i|] eqn:Dq.
  2:{ injection H as <- <- <- <-; right; cbn [queue]. split; [|split; [apply Permutation_refl|discriminate]].
      intros ((_ & (j & X & _) & _) & _). congruence. }
  destruct (existsb (Nat.eqb i) (queue s)) eqn:Ex.
  2:{ injection H as <- <- <- <-; right; cbn [queue]. split; [|split; [apply Permutation_refl|discriminate]].
      intros ((_ & (j & X & Y) & _) & _). assert (j = i) by congruence. subst j. apply existsb_in in Y. congruence. }
  apply existsb_in in Ex. destruct (_ || _); [discriminate|]. destruct (rQ r) eqn:Q.
  - injection H as <- <- <- <-. right. cbn [queue]. split; [intros ((_ & _ & X) & _); congruence|]. split.
    + eapply Permutation_trans; [apply without_perm, Ex|]. apply Permutation_cons_append.
    + intros _ X. rewrite X in Ex. destruct Ex.
  - injection H as <- <- <- <-. left. cbn [queue]. split; [|split; [reflexivity|split; [reflexivity|exists i; apply without_perm, Ex]]].
    split; [exact Se|]. split; [exists i; auto|exact Q].
Qed.

Lemma rounds_empty : forall l s s' o, queue s = [] -> rounds s l = Some (s', o) -> queue s' = [] /\ forall x, In x o -> fst x = None.
Proof.
  induction l as [|[f r] l IH]; intros s s' o Q H; cbn [rounds] in H.
  - injection H as <- <-. split; [exact Q|]. intros x [].
  - destruct (doProcessFrame s f r) as [|s1 f1 ok ret] eqn:P; [discriminate|].
    destruct (rounds s1 l) as [[s2 o2]|] eqn:R; [|discriminate]. injection H as <- <-.
    destruct (process_queue _ _ _ _ _ _ _ P) as [(_ & _ & _ & i & Pm)|(_ & Pm & T)].
    + rewrite Q in Pm. apply Permutation_nil in Pm. discriminate.
    + rewrite Q in Pm. apply Permutation_nil in Pm. destruct (IH _ _ _ Pm R) as (Q2 & O2). split; [exact Q2|].
      intros x [<-|X]; [|auto]. destruct ok; [destruct (T eq_refl Q)|reflexivity].
Qed.

Lemma rounds_queue : forall l s s' o, rounds s l = Some (s', o) -> (forall f r, In (f, r) l -> rQ r = true) -> Permutation (queue s) (queue s').
Proof.
  induction l as [|[f r] l IH]; intros s s' o H Q; cbn [rounds] in H.
  - injection H as <- <-. apply Permutation_refl.
  - destruct (doProcessFrame s f r) as [|s1 f1 ok ret] eqn:P; [discriminate|].
    destruct (rounds s1 l) as [[s2 o2]|] eqn:R; [|discriminate]. injection H as <- <-.
    assert (P1 : Permutation (queue s) (queue s1)).
    { destruct (process_queue _ _ _ _ _ _ _ P) as [((_ & _ & X) & _)|(_ & X & _)]; [|exact X].
      rewrite (Q f r (or_introl eq_refl)) in X. discriminate. }
    eapply Permutation_trans; [exact P1|]. eapply IH; [exact R|]. intros g x X. apply (Q g x). right. exact X.
Qed.
