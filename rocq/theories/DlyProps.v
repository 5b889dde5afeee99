(** C63: the delay and the losses reported for a path are those of its recent frames. *)
From Verif Require Import Base DlyModel DlySpec DlyProofs.
Local Open Scope list_scope.
Local Open Scope Z_scope.

Lemma after_first W t0 d0 fs : 0 <= t0 -> measureAll W ((t0, d0) :: fs) stats0 = measureAll W fs (mkStats 0 0 t0 0 0).
Proof. intros H. cbn [measureAll fold_left fst snd]. unfold measureDelay at 2. cbn [lastTs stats0]. change (-1 <? 0) with true. cbv iota. rewrite Z.eqb_refl. reflexivity. Qed.
Lemma first_windows W t0 d0 fs : 0 < W -> 0 <= t0 -> Forall (fun f => 0 <= fst f) fs ->
  avgDelay (measureAll W ((t0, d0) :: fs) stats0) = last (map wmean (ended W t0 (distinct t0 fs))) 0.
Proof.
  intros HW T F. rewrite after_first by exact T.
  destruct (measure_windows W fs t0 [] (mkStats 0 0 t0 0 0) HW) as [A _]; [|reflexivity|exact F|exact A].
  unfold inWindow. cbn. repeat split; lia.
Qed.
Lemma last_map {A B} (f : A -> B) l d e : l <> [] -> last (map f l) e = f (last l d).
Proof. intros N. destruct l as [|x l] using rev_ind; [congruence|]. rewrite map_app. cbn [map]. rewrite !last_last. reflexivity. Qed.
Lemma ended_in W t0 fs w : In w (ended W t0 fs) -> exists pre post, fs = pre ++ w ++ post.
Proof.
  intros I. pose proof (windows_concat W fs t0 []) as C. unfold ended in I. cbv zeta in C. cbn [app] in C.
  apply in_split in I. destruct I as (l1 & l2 & E). rewrite E in C. rewrite concat_app in C. cbn [concat] in C.
  exists (concat l1), (concat l2 ++ snd (snd (windows W t0 [] fs))). rewrite <- !app_assoc in C. symmetry. exact C.
Qed.
Lemma total_mono w pre post : Forall (fun f => 0 <= snd f) (pre ++ w ++ post) -> 0 <= total w <= total (pre ++ w ++ post).
Proof.
  intros F. rewrite !Forall_app in F. destruct F as (F1 & F2 & F3). rewrite !total_app.
  assert (G : forall l, Forall (fun f : Z * Z => 0 <= snd f) l -> 0 <= total l) by (induction 1 as [|[t d] l H F IH]; unfold total in *; cbn in *; lia).
  pose proof (G _ F1). pose proof (G _ F2). pose proof (G _ F3). lia.
Qed.

(** The delay reported is the mean over the last window that has ended, and 0 before; windows cut the frames that
    differ in time from the frame before, in order (see [C63_windows]). *)
Theorem C63_delay_partial : forall W t0 d0 fs, 0 < W -> 0 <= t0 -> Forall (fun f => 0 <= fst f /\ 0 <= snd f) fs ->
  total (distinct t0 fs) < 2 ^ 63 -> Z.of_nat (length (distinct t0 fs)) < 2 ^ 63 ->
  avgDelay (measureAll W ((t0, d0) :: fs) stats0) = last (map mean (ended W t0 (distinct t0 fs))) 0.
Proof.
  intros W t0 d0 fs HW T F TB LB. rewrite first_windows; try assumption; [|eapply Forall_impl; [|exact F]; cbv beta; intuition].
  f_equal. apply map_ext_in. intros w I. pose proof (windows_nonempty _ _ _ _ _ I) as N. apply ended_in in I. destruct I as (pre & post & E).
  assert (FD : Forall (fun f => 0 <= snd f) (distinct t0 fs)).
  { rewrite Forall_forall in *. intros f I. apply distinct_sub in I. apply (F f I). }
  rewrite E in *. pose proof (total_mono _ _ _ FD). apply wmean_mean; [exact N|lia|]. rewrite !app_length in LB. lia.
Qed.
Theorem C63_windows : forall W t0 fs, let r := windows W t0 [] fs in
  concat (fst r) ++ snd (snd r) = fs /\ Forall (fun w => w <> []) (fst r).
Proof. intros W t0 fs r. split; [apply (windows_concat W fs t0 [])|]. apply Forall_forall. intros w I. eapply windows_nonempty, I. Qed.
(** So it lies between the smallest and the greatest delay. *)
Theorem C63_bounds_partial : forall W t0 d0 fs a b, 0 < W -> 0 <= t0 -> 0 <= a -> Forall (fun f => 0 <= fst f /\ a <= snd f <= b) fs ->
  total (distinct t0 fs) < 2 ^ 63 -> Z.of_nat (length (distinct t0 fs)) < 2 ^ 63 ->
  let r := avgDelay (measureAll W ((t0, d0) :: fs) stats0) in r = 0 \/ a <= r <= b.
Proof.
  intros W t0 d0 fs a b HW T A F TB LB r. unfold r. rewrite C63_delay_partial; try assumption; [|eapply Forall_impl; [|exact F]; cbv beta; intros; lia].
  destruct (last_some (ended W t0 (distinct t0 fs)) []) as [->|(l & w & E & L)]; [left; reflexivity|]. right.
  rewrite (last_map mean _ []) by (rewrite E; destruct l; discriminate). rewrite L.
  assert (I : In w (ended W t0 (distinct t0 fs))) by (rewrite E; apply in_or_app; right; left; reflexivity).
  apply mean_bound; [eapply windows_nonempty, I|]. apply ended_in in I. destruct I as (pre & post & E2). rewrite Forall_forall in *. intros f J.
  assert (K : In f (distinct t0 fs)) by (rewrite E2, !in_app_iff; auto). apply distinct_sub in K. apply (F f K).
Qed.
(** It is recent: if the times do not go back and are at most [G] apart, then as soon as one window has passed it is
    the mean of consecutive frames less than two windows and one gap old. *)
Theorem C63_recent_partial : forall W G t0 d0 fs, 0 < W -> 0 <= G < W -> 0 <= t0 -> paced G t0 fs -> Forall (fun f => 0 <= snd f) fs ->
  total (distinct t0 fs) < 2 ^ 63 -> Z.of_nat (length (distinct t0 fs)) < 2 ^ 63 ->
  let newest := last (map fst (distinct t0 fs)) t0 in
  t0 + W <= newest ->
  exists pre w post, distinct t0 fs = pre ++ w ++ post /\ w <> [] /\
    avgDelay (measureAll W ((t0, d0) :: fs) stats0) = mean w /\ Forall (fun f => newest - fst f < 2 * W + G) w.
Proof.
  intros W G t0 d0 fs HW HG T P F TB LB newest L.
  assert (F' : Forall (fun f => 0 <= fst f /\ 0 <= snd f) fs).
  { rewrite Forall_forall in *. intros f I. split; [pose proof (paced_ge _ _ _ _ P I); lia|apply F, I]. }
  assert (NE : ended W t0 (distinct t0 fs) <> []).
  { unfold newest in L. clear - HW HG P L. apply paced_distinct in P. revert P L. generalize (distinct t0 fs). intros l P L.
    assert (NW : forall fs st cu p, paced G p fs -> cu <> [] -> st <= p < st + W -> fst (windows W st cu fs) = [] -> last (map fst fs) p < st + W).
    { clear. induction fs as [|x fs IHf]; intros st cu p P NC S Z0; [cbn; lia|]. destruct P as [P1 P2]. cbn [windows] in Z0. destruct cu as [|c cu]; [congruence|].
      destruct (Z.leb_spec W (fst x - st)) as [L|L]; [destruct (windows W (fst x) [x] fs); discriminate|].
      specialize (IHf st ((c :: cu) ++ [x]) (fst x) P2 ltac:(destruct cu; discriminate) ltac:(lia) Z0).
      cbn [map]. destruct fs as [|y l]; [cbn in *; lia|]. cbn [map last] in *. clear - IHf. revert y IHf. induction l as [|z l IHl]; intros y IHf; [exact IHf|]. cbn [map] in *. apply IHl, IHf. }
    unfold ended. destruct l as [|x l]; [cbn in L; lia|]. destruct P as [P1 P2]. cbn [windows]. intros Z0.
    specialize (NW l t0 [x] (fst x) P2 ltac:(discriminate) ltac:(lia) Z0).
    cbn [map] in L. destruct l as [|y l]; [cbn in *; lia|]. cbn [map last] in *.
    assert (EQ : forall (l : list (Z * Z)) (y : Z * Z) p q, last (fst y :: map fst l) p = last (fst y :: map fst l) q).
    { clear. induction l as [|z l IH]; intros y p q; [reflexivity|]. cbn [map last] in *. apply (IH z). }
    cbn [last] in EQ. rewrite (EQ l y t0 (fst x)) in L. lia. }
  pose proof (windows_fresh W G (distinct t0 fs) t0 [] t0 HW ltac:(lia) (paced_distinct _ _ _ P) ltac:(lia) (Forall_nil _) ltac:(intros _; split; [reflexivity|lia]) NE) as FR.
  set (w := last (ended W t0 (distinct t0 fs)) []) in *.
  assert (I : In w (ended W t0 (distinct t0 fs))).
  { unfold w. destruct (last_some (ended W t0 (distinct t0 fs)) []) as [Q|(l & x & E & Q)]; [congruence|]. rewrite Q, E. apply in_or_app. right. left. reflexivity. }
  pose proof (ended_in _ _ _ _ I) as (pre & post & E). exists pre, w, post. split; [exact E|]. split; [eapply windows_nonempty, I|]. split.
  - rewrite C63_delay_partial by assumption. apply (last_map mean _ [] 0 NE).
  - apply Forall_forall. intros f J. apply FR. exact J.
Qed.

(** Not every frame counts: neither the first one nor one with the time of the frame before. *)
Theorem C63_uncounted_refuted : forall W t0 d d' fs, 0 <= t0 ->
  measureAll W ((t0, d) :: fs) stats0 = measureAll W ((t0, d') :: fs) stats0 /\
  forall fs1, 0 <= lastTs (measureAll W fs1 stats0) ->
    let t := lastTs (measureAll W fs1 stats0) in measureAll W (fs1 ++ (t, d) :: fs) stats0 = measureAll W (fs1 ++ fs) stats0.
Proof.
  intros W t0 d d' fs T. split; [rewrite !after_first by exact T; reflexivity|]. intros fs1 L t.
  unfold measureAll. rewrite !fold_left_app. cbn [fold_left fst snd]. f_equal. fold (measureAll W fs1 stats0). unfold t in *. unfold measureDelay.
  destruct (Z.ltb_spec (lastTs (measureAll W fs1 stats0)) 0); [lia|]. rewrite Z.eqb_refl. destruct (measureAll W fs1 stats0); reflexivity.
Qed.
(** Times that go back freeze it: as long as no frame is later than the start of the window plus its length, nothing
    is reported, for any number of frames and any delays. *)
Theorem C63_frozen_refuted : forall W t0 d0 fs, 0 < W -> 0 <= t0 -> Forall (fun f => 0 <= fst f < t0 + W) fs ->
  avgDelay (measureAll W ((t0, d0) :: fs) stats0) = 0.
Proof.
  intros W t0 d0 fs HW T F. rewrite first_windows; try assumption; [|eapply Forall_impl; [|exact F]; cbv beta; intros; lia].
  assert (N : forall l cur, Forall (fun f : Z * Z => 0 <= fst f < t0 + W) l -> fst (windows W t0 cur l) = []).
  { induction l as [|f l IH]; intros cur FL; [reflexivity|]. apply Forall_cons_iff in FL. destruct FL as [FL1 FL]. cbn [windows]. destruct cur; [apply IH, FL|].
    destruct (Z.leb_spec W (fst f - t0)); [lia|apply IH, FL]. }
  unfold ended. rewrite N; [reflexivity|]. rewrite Forall_forall in *. intros f I. apply distinct_sub in I. auto.
Qed.
(** Delays below zero (clocks that are set back) are not averaged: two or more of them are reported as a large number. *)
Theorem C63_negative_refuted : forall W t0 d0 fs w ws, 0 < W -> 0 <= t0 -> Forall (fun f => 0 <= fst f) fs ->
  ended W t0 (distinct t0 fs) = ws ++ [w] -> - 2 ^ 62 <= total w < 0 -> 2 <= Z.of_nat (length w) < 2 ^ 62 ->
  let r := avgDelay (measureAll W ((t0, d0) :: fs) stats0) in
  r = (2 ^ 64 + total w) / Z.of_nat (length w) /\ 0 < r.
Proof.
  intros W t0 d0 fs w ws HW T F E TW LW r. unfold r. rewrite first_windows by assumption. rewrite E, map_app. cbn [map]. rewrite last_last. unfold wmean, u64.
  replace (total w mod 18446744073709551616) with (2 ^ 64 + total w).
  2:{ symmetry. rewrite <- (Z.mod_unique (total w) 18446744073709551616 (-1) (2 ^ 64 + total w)); lia. }
  rewrite (Z.mod_small (Z.of_nat (length w))) by lia.
  assert (B : 1 <= (2 ^ 64 + total w) / Z.of_nat (length w) < 2 ^ 63).
  { split; [apply Z.div_le_lower_bound; lia|]. apply Z.div_lt_upper_bound; lia. }
  unfold s64. rewrite Z.mod_small by lia. lia.
Qed.
(** What a path reports: the delay while it is below 2^31 microseconds, the losses of the queues there are while their
    sum is below 2^31; a path without statistics reports the delay -1. *)
Definition losses (l : list (option Z)) : list Z := flat_map (fun o => match o with Some n => [n] | None => [] end) l.
Theorem C63_report_partial : forall s dst mids, - 2 ^ 31 <= avgDelay s < 2 ^ 31 ->
  Forall (fun n => 0 <= n) (losses (dst :: mids)) -> fold_right Z.add 0 (losses (dst :: mids)) < 2 ^ 31 ->
  reportDelay (Some s) = avgDelay s /\ reportDelay None = -1 /\ reportLost dst mids = fold_right Z.add 0 (losses (dst :: mids)).
Proof.
  intros s dst mids A F B. split; [|split; [reflexivity|]].
  - unfold reportDelay, s32. rewrite Z.mod_small by lia. lia.
  - assert (NN : forall l, Forall (fun n => 0 <= n) l -> 0 <= fold_right Z.add 0 l) by (induction 1; cbn; lia).
    assert (G : forall l a, 0 <= a -> Forall (fun n => 0 <= n) (losses l) -> a + fold_right Z.add 0 (losses l) < 2 ^ 31 ->
      fold_left (fun a o => u64 (a + match o with Some n => n | None => 0 end)) l a = a + fold_right Z.add 0 (losses l)).
    { induction l as [|x l IH]; intros a Ha Fl Bl; [cbn; lia|]. cbn [fold_left]. destruct x as [x|].
      - change (losses (Some x :: l)) with (x :: losses l) in *. apply Forall_cons_iff in Fl. destruct Fl as [Fx Fl]. cbn [fold_right] in *.
        pose proof (NN _ Fl). unfold u64 at 2. rewrite Z.mod_small by lia. rewrite IH; try assumption; lia.
      - change (losses (None :: l)) with (losses l) in *. pose proof (NN _ Fl). unfold u64 at 2. rewrite Z.add_0_r, Z.mod_small by lia. apply IH; assumption. }
    unfold reportLost. destruct dst as [d|].
    + change (losses (Some d :: mids)) with (d :: losses mids) in *. apply Forall_cons_iff in F. destruct F as [F1 F]. cbn [fold_right] in *.
      pose proof (NN _ F). unfold u64 at 2. rewrite (Z.mod_small d) by lia. rewrite G; try assumption; try lia. unfold s32. rewrite Z.mod_small by lia. lia.
    + change (losses (None :: mids)) with (losses mids) in *. pose proof (NN _ F). rewrite G; try assumption; try lia. unfold s32. rewrite Z.mod_small by lia. lia.
Qed.
Theorem C63_report_refuted : forall s, 2 ^ 31 <= avgDelay s < 2 ^ 32 -> reportDelay (Some s) < 0.
Proof.
  intros s H. unfold reportDelay, s32. rewrite <- (Z.mod_unique (avgDelay s + 2147483648) 4294967296 1 (avgDelay s - 2147483648)); lia.
Qed.

Definition exFrames : list (Z * Z) := [(400000, 100); (400000, 7); (800000, 300); (1200000, 50); (1600000, 60)].
Example C63_case : paced 400000 0 exFrames /\ distinct 0 exFrames = [(400000, 100); (800000, 300); (1200000, 50); (1600000, 60)] /\
  ended 1000000 0 (distinct 0 exFrames) = [[(400000, 100); (800000, 300)]] /\
  avgDelay (measureAll 1000000 ((0, 9) :: exFrames) stats0) = 200.
Proof. split; [cbn; lia|]. vm_compute. repeat split. Qed.
Example C63_negative_case : avgDelay (measureAll 1000000 [(0, 0); (400000, -1); (800000, -1); (1200000, 5)] stats0) = 9223372036854775807.
Proof. vm_compute. reflexivity. Qed.
Print Assumptions C63_delay_partial.
Print Assumptions C63_windows.
Print Assumptions C63_bounds_partial.
Print Assumptions C63_recent_partial.
Print Assumptions C63_uncounted_refuted.
Print Assumptions C63_frozen_refuted.
Print Assumptions C63_negative_refuted.
Print Assumptions C63_report_partial.
Print Assumptions C63_report_refuted.
