(* Lemmas on the statistics. *)
From Coq Require Import ZArith QArith List Bool Lia Lqa.
From Verif Require Import StatModel StatSpec.
Import ListNotations.
Local Open Scope list_scope.
Local Open Scope Z_scope.

Lemma Qlt_b_true a b : Qlt_b a b = true -> (a < b)%Q.
Proof. unfold Qlt_b. rewrite negb_true_iff. intros H. apply Qnot_le_lt. intros C. apply Qle_bool_iff in C. congruence. Qed.
Lemma Qlt_b_false a b : Qlt_b a b = false -> (b <= a)%Q.
Proof. unfold Qlt_b. rewrite negb_false_iff. apply Qle_bool_iff. Qed.

Lemma feedQ vs : forall g, let g' := fold_left (feed Qlt_b) vs g in
  ((gmin g' <= gmin g)%Q /\ Forall (Qle (gmin g')) vs /\ (gmin g' = gmin g \/ In (gmin g') vs)) /\
  ((gmax g <= gmax g')%Q /\ Forall (fun x => Qle x (gmax g')) vs /\ (gmax g' = gmax g \/ In (gmax g') vs)).
Proof.
  induction vs as [|v t IH]; intros g; cbn [fold_left].
  - repeat split; auto; apply Qle_refl.
  - destruct (IH (feed Qlt_b g v)) as ((A1 & A2 & A3) & (B1 & B2 & B3)). set (g' := fold_left _ t _) in *.
    unfold feed in A1, A3, B1, B3. cbn [gmin gmax] in A1, A3, B1, B3. split.
    + destruct (Qlt_b v (gmin g)) eqn:E; [apply Qlt_b_true in E|apply Qlt_b_false in E].
      * split; [lra|]. split; [constructor; [exact A1|exact A2]|]. right. destruct A3 as [A3|A3]; [left; auto|right; exact A3].
      * split; [exact A1|]. split; [constructor; [lra|exact A2]|]. destruct A3 as [A3|A3]; [left; exact A3|right; right; exact A3].
    + destruct (Qlt_b (gmax g) v) eqn:E; [apply Qlt_b_true in E|apply Qlt_b_false in E].
      * split; [lra|]. split; [constructor; [exact B1|exact B2]|]. right. destruct B3 as [B3|B3]; [left; auto|right; exact B3].
      * split; [exact B1|]. split; [constructor; [lra|exact B2]|]. destruct B3 as [B3|B3]; [left; exact B3|right; right; exact B3].
Qed.
Lemma feedZ vs : forall g, let g' := fold_left (feed Z.ltb) vs g in
  (gmin g' <= gmin g /\ Forall (Z.le (gmin g')) vs /\ (gmin g' = gmin g \/ In (gmin g') vs)) /\
  (gmax g <= gmax g' /\ Forall (fun x => x <= gmax g') vs /\ (gmax g' = gmax g \/ In (gmax g') vs)).
Proof.
  induction vs as [|v t IH]; intros g; cbn [fold_left].
  - repeat split; auto; lia.
  - destruct (IH (feed Z.ltb g v)) as ((A1 & A2 & A3) & (B1 & B2 & B3)). set (g' := fold_left _ t _) in *.
    unfold feed in A1, A3, B1, B3. cbn [gmin gmax] in A1, A3, B1, B3. split.
    + destruct (Z.ltb_spec v (gmin g)) as [E|E].
      * split; [lia|]. split; [constructor; [exact A1|exact A2]|]. right. destruct A3 as [A3|A3]; [left; auto|right; exact A3].
      * split; [exact A1|]. split; [constructor; [lia|exact A2]|]. destruct A3 as [A3|A3]; [left; exact A3|right; right; exact A3].
    + destruct (Z.ltb_spec (gmax g) v) as [E|E].
      * split; [lia|]. split; [constructor; [exact B1|exact B2]|]. right. destruct B3 as [B3|B3]; [left; auto|right; exact B3].
      * split; [exact B1|]. split; [constructor; [lia|exact B2]|]. destruct B3 as [B3|B3]; [left; exact B3|right; right; exact B3].
Qed.

(* A gauge that starts above (below) some value shows the smallest
   (greatest) value. *)
Lemma smallestZ vs m0 x0 : Exists (fun v => v <= m0) vs -> SmallestZ (gmin (fold_left (feed Z.ltb) vs (mkG m0 x0))) vs.
Proof.
  intros E. destruct (feedZ vs (mkG m0 x0)) as ((A1 & A2 & A3) & _). cbn [gmin] in *. split; [|exact A2].
  destruct A3 as [A3|A3]; [|exact A3]. apply Exists_exists in E. destruct E as (v & V1 & V2).
  rewrite Forall_forall in A2. specialize (A2 v V1). replace (gmin _) with v by lia. exact V1.
Qed.
Lemma greatestZ vs m0 x0 : Exists (fun v => x0 <= v) vs -> GreatestZ (gmax (fold_left (feed Z.ltb) vs (mkG m0 x0))) vs.
Proof.
  intros E. destruct (feedZ vs (mkG m0 x0)) as (_ & (A1 & A2 & A3)). cbn [gmax] in *. split; [|exact A2].
  destruct A3 as [A3|A3]; [|exact A3]. apply Exists_exists in E. destruct E as (v & V1 & V2).
  rewrite Forall_forall in A2. specialize (A2 v V1). cbn beta in A2. replace (gmax _) with v by lia. exact V1.
Qed.
Lemma wrong_minZ vs m0 x0 : Forall (fun v => m0 < v) vs -> gmin (fold_left (feed Z.ltb) vs (mkG m0 x0)) = m0.
Proof.
  intros E. destruct (feedZ vs (mkG m0 x0)) as ((A1 & A2 & A3) & _). cbn [gmin] in *.
  destruct A3 as [A3|A3]; [exact A3|]. rewrite Forall_forall in E. specialize (E _ A3). cbn beta in E. lia.
Qed.
Lemma in_existsQ m l : In m l -> Exists (Qeq m) l.
Proof. intros H. apply Exists_exists. exists m. split; [exact H|apply Qeq_refl]. Qed.
Lemma smallestQ vs m0 x0 : Exists (fun v => v <= m0)%Q vs -> Smallest (gmin (fold_left (feed Qlt_b) vs (mkG m0 x0))) vs.
Proof.
  intros E. destruct (feedQ vs (mkG m0 x0)) as ((A1 & A2 & A3) & _). cbn [gmin] in *. split; [|exact A2].
  destruct A3 as [A3|A3]; [|apply in_existsQ; exact A3]. apply Exists_exists in E. destruct E as (v & V1 & V2).
  rewrite Forall_forall in A2. specialize (A2 v V1). apply Exists_exists. exists v. split; [exact V1|]. rewrite A3 in *.
  apply Qle_antisym; assumption.
Qed.
Lemma greatestQ vs m0 x0 : Exists (fun v => x0 <= v)%Q vs -> Greatest (gmax (fold_left (feed Qlt_b) vs (mkG m0 x0))) vs.
Proof.
  intros E. destruct (feedQ vs (mkG m0 x0)) as (_ & (A1 & A2 & A3)). cbn [gmax] in *. split; [|exact A2].
  destruct A3 as [A3|A3]; [|apply in_existsQ; exact A3]. apply Exists_exists in E. destruct E as (v & V1 & V2).
  rewrite Forall_forall in A2. specialize (A2 v V1). cbn beta in A2. apply Exists_exists. exists v. split; [exact V1|]. rewrite A3 in *.
  apply Qle_antisym; assumption.
Qed.

Lemma same_smallest m l l' : Forall2 Qeq l l' -> Smallest m l -> Smallest m l'.
Proof.
  intros F [E A]. split.
  - induction F as [|x y l l' H F IH]; [inversion E|]. inversion E; subst; [left; rewrite <- H; assumption|].
    right. apply IH; [assumption|]. inversion A; assumption.
  - clear E. induction F as [|x y l l' H F IH]; [constructor|]. inversion A; subst. constructor; [rewrite <- H; assumption|auto].
Qed.
Lemma same_greatest m l l' : Forall2 Qeq l l' -> Greatest m l -> Greatest m l'.
Proof.
  intros F [E A]. split.
  - induction F as [|x y l l' H F IH]; [inversion E|]. inversion E; subst; [left; rewrite <- H; assumption|].
    right. apply IH; [assumption|]. inversion A; assumption.
  - clear E. induction F as [|x y l l' H F IH]; [constructor|]. inversion A; subst. constructor; [rewrite <- H; assumption|auto].
Qed.
Lemma same_exists (P : Q -> Prop) l l' : (forall x y, (x == y)%Q -> P x -> P y) -> Forall2 Qeq l l' -> Exists P l' -> Exists P l.
Proof.
  intros Pr F. induction F as [|x y l l' H F IH]; intros E; [inversion E|]. inversion E; subst.
  - left. apply (Pr y); [symmetry; exact H|assumption].
  - right. auto.
Qed.

Lemma u32_delta a b : a <= b < a + U32 -> u32 (b mod U32 - a mod U32) = b - a.
Proof.
  intros H. unfold u32, U32 in *. rewrite <- Zminus_mod. apply Z.mod_small. lia.
Qed.

(* One measurement sees exactly what happened since the last. *)
Definition at_ (s : rstat) (a : truth) : Prop :=
  kbytes s = tBytes a /\ recvd s = tRecv a mod U32 /\ expctd s = tExp a mod U32 /\
  endTime s = (tTime a / 1000000, tTime a mod 1000000).

Lemma measure_spec s a b : at_ s a -> follows a b ->
  at_ (measure s (shown b)) b /\
  (exists v, kbps (measure s (shown b)) = feed Qlt_b (kbps s) v /\ (v == rateOf a b)%Q) /\
  loss (measure s (shown b)) = feed Qlt_b (loss s) (lossOf a b) /\
  jit (measure s (shown b)) = feed Z.ltb (jit s) (tJitter b) /\
  jitNow (measure s (shown b)) = tJitter b.
Proof.
  intros (A1 & A2 & A3 & A4) (F1 & F2 & F3 & F4).
  unfold measure. cbn [shown lTime lBytes lRecv lExp lJit fst snd kbytes recvd expctd endTime kbps loss jit jitNow].
  rewrite A1, A2, A3, A4. cbn [fst snd]. rewrite !u32_delta by assumption.
  split; [|split; [|split; [|split]]]; [| | |reflexivity|reflexivity].
  - repeat split; reflexivity.
  - eexists. split; [reflexivity|].
    set (ta := tTime a) in *. set (tb := tTime b) in *.
    assert (SD : u32 (tb / 1000000 - ta / 1000000) = tb / 1000000 - ta / 1000000).
    { unfold u32, U32. apply Z.mod_small.
      pose proof (Z.div_le_mono ta tb 1000000). 
      pose proof (Z.div_mod ta 1000000). pose proof (Z.mod_pos_bound ta 1000000).
      pose proof (Z.div_mod tb 1000000). pose proof (Z.mod_pos_bound tb 1000000). lia. }
    rewrite SD. clear SD.
    set (T := (inject_Z (tb / 1000000 - ta / 1000000) + inject_Z (tb mod 1000000 - ta mod 1000000) / inject_Z 1000000)%Q).
    assert (ET : (T == inject_Z (tb - ta) / inject_Z 1000000)%Q).
    { unfold T. setoid_replace (inject_Z (tb / 1000000 - ta / 1000000))%Q with (inject_Z ((tb / 1000000 - ta / 1000000) * 1000000) / inject_Z 1000000)%Q.
      - setoid_replace (inject_Z ((tb / 1000000 - ta / 1000000) * 1000000) / inject_Z 1000000 + inject_Z (tb mod 1000000 - ta mod 1000000) / inject_Z 1000000)%Q
          with ((inject_Z ((tb / 1000000 - ta / 1000000) * 1000000) + inject_Z (tb mod 1000000 - ta mod 1000000)) / inject_Z 1000000)%Q by (field; discriminate).
        rewrite <- inject_Z_plus. replace ((tb / 1000000 - ta / 1000000) * 1000000 + (tb mod 1000000 - ta mod 1000000)) with (tb - ta); [reflexivity|].
        pose proof (Z.div_mod ta 1000000). pose proof (Z.div_mod tb 1000000). lia.
      - rewrite inject_Z_mult. field. }
    unfold rateOf. fold ta tb. destruct (Z.eqb_spec tb ta) as [E|E].
    + assert (Qeq_bool T 0 = true) as ->.
      { apply Qeq_bool_iff. rewrite ET, E, Z.sub_diag. reflexivity. }
      destruct (Qlt_b 0 0); reflexivity.
    + assert (P : (0 < inject_Z (tb - ta))%Q).
      { change 0%Q with (inject_Z 0). rewrite <- Zlt_Qlt. lia. }
      assert (PT : (0 < T)%Q).
      { rewrite ET. apply Qlt_shift_div_l; [reflexivity|]. rewrite Qmult_0_l. exact P. }
      destruct (Qeq_bool T 0) eqn:Q0; [apply Qeq_bool_iff in Q0; lra|].
      assert (N : (0 <= 8 * (tBytes b - tBytes a) / T)%Q).
      { apply Qle_shift_div_l; [exact PT|]. lra. }
      destruct (Qlt_b (8 * (tBytes b - tBytes a) / T) 0) eqn:NB; [apply Qlt_b_true in NB; lra|].
      rewrite ET. field. intros C. rewrite C in P. lra.
  - unfold lossOf. destruct (Z.eqb_spec (tExp b) (tExp a)) as [E|E].
    + rewrite E, Z.sub_diag. reflexivity.
    + destruct (Z.eqb_spec (tExp b - tExp a) 0); [lia|]. reflexivity.
Qed.

Lemma measureAll_spec l : forall s a, at_ s a -> history a l ->
  let s' := measureAll s (map shown l) in
  (exists vs, kbps s' = fold_left (feed Qlt_b) vs (kbps s) /\ Forall2 Qeq vs (between rateOf a l)) /\
  loss s' = fold_left (feed Qlt_b) (between lossOf a l) (loss s) /\
  jit s' = fold_left (feed Z.ltb) (map tJitter l) (jit s) /\
  (forall d, jitNow s = tJitter d -> jitNow s' = tJitter (last l d)).
Proof.
  induction l as [|b r IH]; intros s a A H.
  - cbn. split; [exists []; split; [reflexivity|constructor]|]. auto.
  - cbn [history] in H. destruct H as [F H]. destruct (measure_spec s a b A F) as (M1 & (v & M2 & M3) & M4 & M5 & M6).
    destruct (IH _ b M1 H) as ((vs & I1 & I2) & I3 & I4 & I5).
    unfold measureAll in *. cbn [map fold_left between]. cbn zeta in *.
    split; [|split; [|split]].
    + exists (v :: vs). split; [cbn [fold_left]; rewrite <- M2; exact I1|constructor; assumption].
    + rewrite I3, M4. reflexivity.
    + rewrite I4, M5. reflexivity.
    + intros d D. rewrite (I5 b M6). cbn [last]. destruct r; [reflexivity|].
      assert (X : forall (q : list truth) x d1 d2, last (x :: q) d1 = last (x :: q) d2).
      { induction q as [|y q IHq]; intros x d1 d2; [reflexivity|]. cbn [last] in *. apply (IHq y). }
      f_equal. apply X.
Qed.

Lemma started_at t : at_ (rstat0 (t / 1000000, t mod 1000000)) (started t).
Proof. repeat split; reflexivity. Qed.

Lemma between_bound (P : Q -> Prop) f a l : history a l -> (forall x y, follows x y -> P (f x y)) -> Forall P (between f a l).
Proof.
  revert a. induction l as [|b r IH]; intros a H F; [constructor|]. cbn [history] in H. destruct H as [H1 H2].
  cbn [between]. constructor; [auto|]. apply IH; assumption.
Qed.
Lemma loss_le1 a b : follows a b -> (lossOf a b <= 1)%Q.
Proof.
  intros (F1 & F2 & F3 & F4). unfold lossOf. destruct (Z.eqb_spec (tExp b) (tExp a)); [discriminate|].
  assert (0 <= inject_Z (tRecv b - tRecv a) / inject_Z (tExp b - tExp a))%Q; [|lra].
  apply Qle_shift_div_l; [change 0%Q with (inject_Z 0); rewrite <- Zlt_Qlt; lia|].
  rewrite Qmult_0_l. change 0%Q with (inject_Z 0). rewrite <- Zle_Qle. lia.
Qed.
Lemma rate_ge0 a b : follows a b -> (0 <= rateOf a b)%Q.
Proof.
  intros (F1 & F2 & F3 & F4). unfold rateOf. destruct (Z.eqb_spec (tTime b) (tTime a)); [discriminate|].
  apply Qle_shift_div_l; [change 0%Q with (inject_Z 0); rewrite <- Zlt_Qlt; lia|]. lra.
Qed.
Lemma forall_exists {A} (P : A -> Prop) l : l <> [] -> Forall P l -> Exists P l.
Proof. intros N F. destruct F; [congruence|]. left. assumption. Qed.

(* The sender. *)
Lemma tReports_spec rs : forall s,
  fold_left tReport rs s = mkT (tBit s) (fold_left (feed Z.ltb) (map rLoss rs) (tLoss s))
    (fold_left (feed Z.ltb) (map rRtt rs) (tRtt s)) (fold_left (feed Z.ltb) (map rJit rs) (tJit s)).
Proof.
  induction rs as [|r t IH]; intros s; [destruct s; reflexivity|]. cbn [fold_left map]. rewrite IH. reflexivity.
Qed.
Lemma tMeasureAll_spec xs : forall s,
  tMeasureAll s xs =
  let rs := flat_map sReports xs in
  mkT (fold_left (feed Z.ltb) (map (fun x => bitrate (sBytes x) (sTime x)) xs) (tBit s))
      (fold_left (feed Z.ltb) (map rLoss rs) (tLoss s))
      (fold_left (feed Z.ltb) (map rRtt rs) (tRtt s)) (fold_left (feed Z.ltb) (map rJit rs) (tJit s)).
Proof.
  unfold tMeasureAll. induction xs as [|x t IH]; intros s; [destruct s; reflexivity|].
  cbn [fold_left]. rewrite IH. cbn [flat_map map fold_left]. unfold tMeasure. rewrite tReports_spec. cbn [tBit tLoss tRtt tJit].
  rewrite !map_app, !fold_left_app. reflexivity.
Qed.

(* The timer. *)
Lemma s32_delta next now : -2147483648 <= next - now < 2147483648 -> s32 (next - u32 now) = next - now.
Proof.
  intros H. unfold s32, u32, U32.
  replace (next - now mod 4294967296 + 2147483648) with (next - now + 2147483648 + (now / 4294967296) * 4294967296).
  - rewrite Z_mod_plus_full. rewrite Z.mod_small by lia. lia.
  - pose proof (Z.div_mod now 4294967296). lia.
Qed.
