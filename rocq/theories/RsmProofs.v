(* Lemmas on the resampler. *)
From Coq Require Import ZArith List Bool Lia.
From Verif Require Import NamesModel RsmModel RsmSpec.
Import ListNotations.
Local Open Scope list_scope.
Local Open Scope Z_scope.

Lemma pix_eqb_true a b : pix_eqb a b = true -> a = b.
Proof. destruct a, b; cbn; congruence. Qed.
Lemma pix_eqb_refl a : pix_eqb a a = true.
Proof. destruct a; reflexivity. Qed.

Ltac cs := match goal with |- _ /\ _ => split; [cs|cs] | _ => idtac end.

Section V.
Variable valid : pic -> bool.

Definition Inv (s : rsm) : Prop :=
  forall a b, ctx s = Some (a, b) -> needs s = false ->
  (known (inFmt s) = false \/ a = mkPic (inW s) (inH s) (inFmt s)) /\ b = target s a /\
  known (fmt a) = true /\ known (outFmt s) = true /\ valid a = true /\ valid b = true.

Definition okpics (s : rsm) (f : pic) : bool :=
  known (fmt f) && valid f && known (outFmt s) && valid (target s f).

Lemma okK s f : known (fmt f) = true -> known (outFmt s) && valid f && valid (target s f) = true -> okpics s f = true.
Proof.
  intros K V. unfold okpics. rewrite K. apply andb_prop in V. destruct V as [V V3]. apply andb_prop in V. destruct V as [V1 V2].
  rewrite V1, V2, V3. reflexivity.
Qed.

Lemma reconfigure_spec s f : Inv s ->
  let '(s1, b) := reconfigure valid s f in
  outW s1 = outW s /\ outH s1 = outH s /\ outFmt s1 = outFmt s /\ ftime s1 = ftime s /\
  (okpics s f = true -> b = true) /\
  (b = true -> known (fmt f) = true -> ctx s1 = Some (f, target s f) /\ needs s1 = false /\ inFmt s1 = fmt f /\ okpics s f = true) /\
  (b = true -> known (fmt f) = false -> s1 = s) /\
  (b = false -> Inv s1).
Proof.
  intros I. unfold reconfigure.
  destruct (ctx s) as [[a c]|] eqn:C.
  - destruct (negb (needs s) && (width f =? inW s) && (height f =? inH s) && pix_eqb (fmt f) (inFmt s)) eqn:E.
    + apply andb_prop in E. destruct E as [E E4]. apply andb_prop in E. destruct E as [E E3]. apply andb_prop in E. destruct E as [E1 E2].
      apply negb_true_iff in E1. apply Z.eqb_eq in E2, E3. apply pix_eqb_true in E4.
      destruct (I a c C E1) as (J1 & J2 & J3 & J4 & J5 & J6).
      cs; auto; try discriminate.
      intros _ KF. destruct J1 as [J1|J1]; [congruence|].
      assert (f = a) by (subst a; destruct f; cbn in *; congruence). subst f. rewrite J2 in C.
      cs; auto. unfold okpics. rewrite J3, J4, J5, <- J2, J6. reflexivity.
    + destruct (known (fmt f)) eqn:K.
      * destruct (known (outFmt s) && valid f && valid (target s f)) eqn:V; cbn.
        -- pose proof (okK s f K V). cs; auto; discriminate.
        -- assert (okpics s f = false).
           { unfold okpics. rewrite K. rewrite (andb_comm (known (outFmt s)) (valid f)) in V. exact V. }
           cs; auto; try discriminate; try congruence; intros; discriminate.
      * cbn. unfold okpics. rewrite K. cs; auto; try discriminate.
        intros _ a' b' X Y. cbn in *. rewrite <- C in X. destruct (I a' b' X Y) as (J1 & J2 & J3 & J4 & J5 & J6). cs; auto.
  - destruct (known (fmt f)) eqn:K.
    + destruct (known (outFmt s) && valid f && valid (target s f)) eqn:V; cbn.
      * pose proof (okK s f K V). cs; auto; discriminate.
      * assert (okpics s f = false).
        { unfold okpics. rewrite K. rewrite (andb_comm (known (outFmt s)) (valid f)) in V. exact V. }
        cs; auto; try discriminate; try congruence; intros; discriminate.
    + cbn. unfold okpics. rewrite K. cs; auto; try discriminate; intros _ a' b' X Y; cbn in *; congruence.
Qed.

Lemma process_spec s f : Inv s ->
  let '(s1, r) := process valid s f in
  Inv s1 /\ outW s1 = outW s /\ outH s1 = outH s /\ outFmt s1 = outFmt s /\ ftime s1 = ftime s /\
  r = if okpics s f then
        if imageSize (target s f) <=? slotSize then Made (target s f) (imageSize (target s f)) (f, target s f) else Overflow
      else Refused.
Proof.
  intros I. pose proof (reconfigure_spec s f I) as R. unfold process. destruct (reconfigure valid s f) as [s1 b].
  destruct R as (R1 & R2 & R3 & R4 & R5 & R6 & R7 & R8).
  assert (T : target s1 f = target s f) by (unfold target; rewrite R1, R2, R3; reflexivity).
  destruct b.
  - destruct (known (fmt f)) eqn:K.
    + destruct (R6 eq_refl eq_refl) as (C & N & F & O). rewrite O.
      pose proof O as O'. unfold okpics in O'. apply andb_prop in O'. destruct O' as [O' O4]. apply andb_prop in O'. destruct O' as [O' O3].
      apply andb_prop in O'. destruct O' as [O1 O2]. rewrite O2. cbn [andb]. rewrite T, O4. cbn [target fmt]. rewrite O3. cbn [andb]. rewrite C.
      assert (J : Inv {| ctx := Some (f, target s f); outW := outW s1; outH := outH s1; outFmt := outFmt s1; needs := needs s1;
          inW := width f; inH := height f; inFmt := inFmt s1; ftime := ftime s1; live := live s1 |}).
      { intros a b X Y. cbn in *. inversion X; subst a b. split; [right; rewrite F; destruct f; reflexivity|].
        split; [rewrite <- T; reflexivity|]. rewrite R3. auto. }
      fold (target s f).
      destruct (imageSize (target s f) <=? slotSize); cbn; cs; auto; apply J.
    + rewrite (R7 eq_refl eq_refl) in *. cbn [andb]. cbn. unfold okpics. rewrite K. cbn. cs; auto; apply I; auto.
  - destruct (okpics s f); [discriminate (R5 eq_refl)|]. cs; auto; apply R8; auto.
Qed.

Lemma config_inv s q : Inv s -> Inv (fst (configEvent s q)).
Proof.
  intros I. unfold configEvent, configure0. destruct (qFmt q) as [z|]; [destruct ((z <? -1) || (5 <? z))|]; cbn [fst]; try exact I;
  intros a b X Y; cbn in Y; discriminate.
Qed.
Lemma run_inv ops : forall s, Inv s -> Inv (run valid s ops).
Proof.
  induction ops as [|o t IH]; intros s I; [exact I|]. cbn. apply IH. destruct o as [f|q]; cbn [step].
  - pose proof (process_spec s f I) as P. destruct (process valid s f). apply P.
  - apply config_inv. exact I.
Qed.
Lemma inv0 o i : Inv (rsm0 o i).
Proof. intros a b X. discriminate. Qed.

(* 1000000 / (1000000 / (1000000 / f)) = 1000000 / f *)
Lemma time_stable N f : 0 < f -> 0 < N / f -> N / (N / (N / f)) = N / f.
Proof.
  intros F G. set (g := N / f) in *. set (k := N / g).
  assert (NP : 0 < N). { destruct (Z_lt_le_dec 0 N); [assumption|]. assert (g <= 0) by (unfold g; apply Z.div_le_upper_bound; lia). lia. }
  assert (K1 : g * k <= N) by (unfold k; apply Z.mul_div_le; exact G).
  assert (K2 : f <= k).
  { unfold k. apply Z.div_le_lower_bound; [exact G|]. rewrite Z.mul_comm. unfold g. apply Z.mul_div_le. exact F. }
  apply Z.le_antisymm.
  - unfold g. apply Z.div_le_compat_l; lia.
  - apply Z.div_le_lower_bound; [lia|]. rewrite Z.mul_comm. exact K1.
Qed.

Definition timeFor (fps : Z) : Z := if fps <=? 0 then 0 else 1000000 / fps.
Lemma timeFor_stable fps : timeFor (if 0 <? timeFor fps then 1000000 / timeFor fps else 0) = timeFor fps.
Proof.
  unfold timeFor at 2 3 4. destruct (Z.leb_spec fps 0); [reflexivity|].
  destruct (Z.ltb_spec 0 (1000000 / fps)) as [G|G].
  - unfold timeFor. destruct (Z.leb_spec (1000000 / (1000000 / fps)) 0) as [L|L]; [|apply time_stable; assumption].
    assert (1 <= 1000000 / (1000000 / fps)); [|lia]. apply Z.div_le_lower_bound; [exact G|].
    apply Z.le_trans with (1000000 / 1); [rewrite Z.mul_1_r; apply Z.div_le_compat_l; lia|reflexivity].
  - cbn. assert (0 <= 1000000 / fps) by (apply Z.div_pos; lia). lia.
Qed.

Lemma newest_snoc {A} (d : A) get ops o : newest d get (ops ++ [o]) =
  match o with
  | Configure q => if taken q then match get q with Some x => x | None => newest d get ops end else newest d get ops
  | Frame _ => newest d get ops
  end.
Proof. unfold newest. rewrite fold_left_app. reflexivity. Qed.

Lemma range_taken z : (-1 <=? z) && (z <=? 5) = negb ((z <? -1) || (5 <? z)).
Proof. destruct (Z.leb_spec (-1) z), (Z.leb_spec z 5), (Z.ltb_spec z (-1)), (Z.ltb_spec 5 z); cbn; try reflexivity; lia. Qed.

Lemma pixOf_format z : -1 <= z <= 5 -> pixOf z = format z.
Proof.
  intros H. assert (E : z = -1 \/ z = 0 \/ z = 1 \/ z = 2 \/ z = 3 \/ z = 4 \/ z = 5) by lia.
  repeat (destruct E as [->|E]; [reflexivity|]). subst. reflexivity.
Qed.

Lemma settings o i ops : let s := run valid (rsm0 o i) ops in
  outW s = newest 0 qW ops /\ outH s = newest 0 qH ops /\
  outFmt s = newest o (fun q => option_map format (qFmt q)) ops /\
  ftime s = timeFor (newest 0 qFps ops).
Proof.
  induction ops as [|x t IH] using rev_ind; [repeat split; reflexivity|].
  cbn zeta in *. unfold run in *. rewrite fold_left_app. cbn [fold_left].
  assert (I : Inv (fold_left (step valid) t (rsm0 o i))) by (apply run_inv; apply inv0).
  set (s := fold_left (step valid) t (rsm0 o i)) in *. destruct IH as (H1 & H2 & H3 & H4).
  rewrite !newest_snoc. destruct x as [f|q]; cbn [step].
  - pose proof (process_spec s f I) as P. destruct (process valid s f) as [s1 r]. destruct P as (_ & P1 & P2 & P3 & P4 & _).
    cbn [fst]. rewrite P1, P2, P3, P4. auto.
  - unfold configEvent, configure0, taken. destruct (qFmt q) as [z|] eqn:Q.
    + rewrite range_taken. destruct ((z <? -1) || (5 <? z)) eqn:R; cbn [negb fst]; [auto|].
      cbn [outW outH outFmt ftime option_map]. apply orb_false_iff in R. destruct R as [R1 R2].
      apply Z.ltb_ge in R1, R2. rewrite pixOf_format by lia. repeat split.
      * destruct (qW q); [reflexivity|exact H1].
      * destruct (qH q); [reflexivity|exact H2].
      * destruct (qFps q) as [p|]; [reflexivity|]. cbn [dflt]. rewrite H4. apply timeFor_stable.
    + cbn [fst outW outH outFmt ftime option_map]. repeat split.
      * destruct (qW q); [reflexivity|exact H1].
      * destruct (qH q); [reflexivity|exact H2].
      * exact H3.
      * destruct (qFps q) as [p|]; [reflexivity|]. cbn [dflt]. rewrite H4. apply timeFor_stable.
Qed.
End V.
