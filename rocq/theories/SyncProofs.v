(** Proofs about rounds of a filter. *)
From Verif Require Import Base ZMap SyncModel SyncSpec.
Local Open Scope list_scope.
Local Open Scope Z_scope.

(** *** Frame time *)
Lemma scan_unfold s ft fr : scan s ft fr = fold_left (scanF s ft) fr (-1, false, false).
Proof. reflexivity. Qed.
Lemma scan_spec s ft : 0 <= s -> 0 < ft -> forall fr oos od va oos' od' va', fold_left (scanF s ft) fr (oos, od, va) = (oos', od', va') -> (oos = -1 \/ oos > s + ft) ->
  ((oos' = -1 /\ oos = -1 /\ forall x, In x fr -> snd x <= s + ft) \/ (oos' > s + ft /\ (oos' = oos \/ In oos' (map snd fr)))) /\ (forall x, In x fr -> snd x > s + ft -> oos' <= snd x) /\ (oos > s + ft -> oos' <= oos) /\
  (od' = true <-> od = true \/ exists x, In x fr /\ snd x < s) /\ (va' = true <-> va = true \/ exists x, In x fr /\ s <= snd x <= s + ft).
Proof.
  intros S F. induction fr as [|[i t] fr IH]; intros oos od va oos' od' va' E O; cbn [fold_left] in E.
  - injection E as <- <- <-. split; [|split; [intros x []|split; [lia|split; (split; [auto|intros [H|(x & [] & _)]; exact H])]]]. destruct O as [->|O]; [left; repeat split; intros x []|right; auto].
  - unfold scanF at 2 in E. cbn [snd] in E. destruct (Z.gtb_spec t (s + ft)) as [G|G].
    + assert (O2 : (if oos <? 0 then t else Z.min t oos) > s + ft) by (destruct (Z.ltb_spec oos 0); [lia|destruct O; lia]).
      apply IH in E; [|right; exact O2]. destruct E as (E1 & M1 & M2 & E2 & E3). specialize (M2 O2). split; [|split; [|split; [|split]]].
      * right. destruct E1 as [(_ & E1 & _)|(E1 & E4)]; [exfalso; lia|]. split; [exact E1|]. destruct E4 as [E4|E4]; [|right; right; exact E4]. rewrite E4. destruct (Z.ltb_spec oos 0); [right; left; reflexivity|]. destruct (Z.min_spec t oos) as [[_ ->]|[_ ->]]; [right; left; reflexivity|left; reflexivity].
      * intros x [<-|X] Y; [cbn [snd]; destruct (Z.ltb_spec oos 0); lia|apply M1; assumption].
      * intros Y. destruct (Z.ltb_spec oos 0); lia.
      * rewrite E2. split; (intros [H|(x & X & Y)]; [left; exact H|right]); [exists x; split; [right; exact X|exact Y]|]. destruct X as [<-|X]; [cbn in Y; lia|exists x; auto].
      * rewrite E3. split; (intros [H|(x & X & Y)]; [left; exact H|right]); [exists x; split; [right; exact X|exact Y]|]. destruct X as [<-|X]; [cbn in Y; lia|exists x; auto].
    + destruct (Z.ltb_spec t s) as [L|L].
      * apply IH in E; [|exact O]. destruct E as (E1 & M1 & M2 & E2 & E3). split; [|split; [|split; [exact M2|split]]].
        -- destruct E1 as [(E1 & E4 & E5)|(E1 & E4)]; [left; repeat split; [exact E1|exact E4|]; intros x [<-|X]; [cbn; lia|apply E5, X]|right; split; [exact E1|]; destruct E4 as [E4|E4]; [left; exact E4|right; right; exact E4]].
        -- intros x [<-|X] Y; [cbn in Y; lia|apply M1; assumption].
        -- rewrite E2. split; [intros _; right; exists (i, t); split; [left; reflexivity|exact L]|intros _; left; reflexivity].
        -- rewrite E3. split; (intros [H|(x & X & Y)]; [left; exact H|right]); [exists x; split; [right; exact X|exact Y]|]. destruct X as [<-|X]; [cbn in Y; lia|exists x; auto].
      * apply IH in E; [|exact O]. destruct E as (E1 & M1 & M2 & E2 & E3). split; [|split; [|split; [exact M2|split]]].
        -- destruct E1 as [(E1 & E4 & E5)|(E1 & E4)]; [left; repeat split; [exact E1|exact E4|]; intros x [<-|X]; [cbn; lia|apply E5, X]|right; split; [exact E1|]; destruct E4 as [E4|E4]; [left; exact E4|right; right; exact E4]].
        -- intros x [<-|X] Y; [cbn in Y; lia|apply M1; assumption].
        -- rewrite E2. split; (intros [H|(x & X & Y)]; [left; exact H|right]); [exists x; split; [right; exact X|exact Y]|]. destruct X as [<-|X]; [cbn in Y; lia|exists x; auto].
        -- rewrite E3. split; [intros _; right; exists (i, t); split; [left; reflexivity|cbn; lia]|intros _; left; reflexivity].
Qed.
Lemma demand_spec f fr ok s : 0 <= syncTs f -> 0 < frameTime f -> frameTimeDemand f fr = (ok, s) ->
  (ok = false -> s = syncTs f /\ (fr = [] \/ (exists x, In x fr /\ snd x < syncTs f) /\ forall x, In x fr -> ~ syncTs f <= snd x <= syncTs f + frameTime f)) /\
  (ok = true -> s >= syncTs f + frameTime f /\ (exists x, In x fr /\ syncTs f <= snd x <= s) /\ ((s > syncTs f + frameTime f /\ forall x, In x fr -> s <= snd x) \/ s = syncTs f + frameTime f /\ exists x, In x fr /\ syncTs f <= snd x <= syncTs f + frameTime f)).
Proof.
  intros S F E. unfold frameTimeDemand in E. destruct fr as [|x0 fr0]; [injection E as <- <-; split; [auto|discriminate]|]. set (fr := x0 :: fr0) in *.
  destruct (scan (syncTs f) (frameTime f) fr) as [[oos od] va] eqn:SC. rewrite scan_unfold in SC. apply scan_spec in SC; [|exact S|exact F|left; reflexivity]. destruct SC as (O & MM & _ & D & V).
  destruct va.
  - cbn [negb] in E. injection E as <- <-. split; [discriminate|]. intros _. split; [lia|]. destruct V as [V _]. destruct (V eq_refl) as [V1|(x & X & Y)]; [discriminate|]. split; [exists x; auto|right; split; [reflexivity|exists x; auto]].
  - cbn [negb] in E. assert (NV : forall x, In x fr -> ~ syncTs f <= snd x <= syncTs f + frameTime f) by (intros x X Y; destruct V as [_ V]; discriminate V; right; exists x; auto).
    destruct od; cbn [negb andb] in E.
    + injection E as <- <-. split; [|discriminate]. intros _. rewrite andb_false_r. split; [reflexivity|]. right. split; [|exact NV]. destruct D as [D _]. destruct (D eq_refl) as [D1|D1]; [discriminate|exact D1].
    + rewrite andb_true_r in E. injection E as <- <-. split; [discriminate|]. intros _.
      assert (NL : forall x, In x fr -> syncTs f <= snd x) by (intros x X; destruct (Z_lt_ge_dec (snd x) (syncTs f)); [destruct D as [_ D]; discriminate D; right; exists x; auto|lia]).
      destruct O as [(_ & _ & O)|(O1 & O2)].
      * exfalso. assert (I : In x0 fr) by (left; reflexivity). apply (NV x0 I). split; [apply NL, I|apply O, I].
      * destruct O2 as [O2|O2]; [lia|]. destruct (Z.gtb_spec oos (syncTs f)); [|lia]. split; [lia|]. split; [|left; split; [lia|]; intros x X; apply MM; [exact X|]; pose proof (NL x X); pose proof (NV x X); lia]. apply in_map_iff in O2. destruct O2 as (x & X1 & X2). exists x. split; [exact X2|]. split; [apply NL, X2|lia].
Qed.
Lemma round_spec full dst f f' ok fr : round full dst f = (f', ok, fr) -> 0 <= syncTs f ->
  frameTime f' = frameTime f /\ sync f' = sync f /\
  (frameTime f <= 0 -> syncTs f' = syncTs f) /\
  (0 < frameTime f -> (ok = true -> syncTs f' >= syncTs f + frameTime f /\ (exists x, In x fr /\ syncTs f <= snd x <= syncTs f') /\ ((syncTs f' > syncTs f + frameTime f /\ forall x, In x fr -> syncTs f' <= snd x) \/ syncTs f' = syncTs f + frameTime f /\ exists x, In x fr /\ syncTs f <= snd x <= syncTs f + frameTime f)) /\
     syncTs f' >= syncTs f /\
     (dst = true -> ok = false -> syncTs f' = syncTs f /\ (fr = [] \/ (exists x, In x fr /\ snd x < syncTs f) /\ forall x, In x fr -> ~ syncTs f <= snd x <= syncTs f + frameTime f))).
Proof.
  intros R S. unfold round in R.
  assert (Q : (f, false, @nil (Z * Z)) = (f', ok, fr) -> frameTime f' = frameTime f /\ sync f' = sync f /\ (frameTime f <= 0 -> syncTs f' = syncTs f) /\
    (0 < frameTime f -> (ok = true -> syncTs f' >= syncTs f + frameTime f /\ (exists x, In x fr /\ syncTs f <= snd x <= syncTs f') /\ ((syncTs f' > syncTs f + frameTime f /\ forall x, In x fr -> syncTs f' <= snd x) \/ syncTs f' = syncTs f + frameTime f /\ exists x, In x fr /\ syncTs f <= snd x <= syncTs f + frameTime f)) /\
     syncTs f' >= syncTs f /\ (dst = true -> ok = false -> syncTs f' = syncTs f /\ (fr = [] \/ (exists x, In x fr /\ snd x < syncTs f) /\ forall x, In x fr -> ~ syncTs f <= snd x <= syncTs f + frameTime f)))).
  { intros E. injection E as <- <- <-. repeat split; try discriminate; auto; lia. }
  destruct (mkeys (ins f)) as [|k ks] eqn:K; [apply Q, R|]. destruct (framesSync full f) as [|i is_] eqn:FS; [apply Q, R|]. clear Q.
  destruct (Z.leb_spec (frameTime f) 0) as [L|L].
  - injection R as <- <- <-. cbn [frameTime sync syncTs]. repeat split; lia.
  - destruct (frameTimeDemand f (fronts (k :: ks) (ins f))) as [o s] eqn:D. injection R as <- <- <-. cbn [frameTime sync syncTs]. apply demand_spec in D; [|exact S|exact L]. destruct D as [D1 D2].
    split; [reflexivity|]. split; [reflexivity|]. split; [lia|]. intros _. split; [|split].
    + intros E. apply andb_true_iff in E. apply D2, E.
    + destruct o; [destruct (D2 eq_refl); lia|destruct (D1 eq_refl); lia].
    + intros -> E. rewrite andb_true_r in E. apply D1, E.
Qed.

(** *** Reference times over histories *)
Lemma sstep_ref f o f' es : sstep f o = (f', es) -> 0 <= syncTs f -> syncTs f <= syncTs f' /\ forall e, In e es -> ref e = syncTs f' .
Proof.
  intros E S. destruct o as [i t|full dst|ft|i|i]; cbn [sstep] in E; try (injection E as <- <-; cbn [syncTs]; split; [lia|intros e []]).
  destruct (round full dst f) as [[f1 ok] fr] eqn:R. injection E as <- <-. apply round_spec in R; [|exact S]. destruct R as (_ & _ & R1 & R2). split; [|intros e [<-|[]]; reflexivity].
  destruct (Z_le_gt_dec (frameTime f) 0) as [L|L]; [rewrite (R1 L); lia|]. destruct (R2 ltac:(lia)) as (_ & R3 & _). lia.
Qed.
Lemma nondecr_cons a l : nondecr (a :: l) <-> (forall b, In b l -> a <= b) /\ nondecr l.
Proof.
  revert a. induction l as [|b l IH]; intros a; [cbn; split; [split; [intros b []|constructor]|constructor]|].
  change (nondecr (a :: b :: l)) with (a <= b /\ nondecr (b :: l)). split.
  - intros [H1 H2]. split; [|exact H2]. intros c [<-|C]; [exact H1|]. apply IH in H2. destruct H2 as [H2 _]. specialize (H2 c C). lia.
  - intros [H1 H2]. split; [apply H1; left; reflexivity|exact H2].
Qed.
Lemma srun_refs : forall ops f f' es, srun f ops = (f', es) -> 0 <= syncTs f -> nondecr (syncTs f :: map ref es).
Proof.
  induction ops as [|o ops IH]; intros f f' es E S; cbn [srun] in E; [injection E as <- <-; constructor|].
  destruct (sstep f o) as [f1 e1] eqn:E1. destruct (srun f1 ops) as [f2 e2] eqn:E2. injection E as <- <-. pose proof (sstep_ref f o f1 e1 E1 S) as [M R]. specialize (IH f1 f2 e2 E2 ltac:(lia)).
  assert (L : e1 = [] \/ exists e, e1 = [e]). { destruct o; cbn [sstep] in E1; try (injection E1 as <- <-; left; reflexivity). destruct (round full dst f) as [[a b] c]. injection E1 as <- <-. right. eexists. reflexivity. }
  destruct L as [->|(e & ->)]; cbn [app map].
  - rewrite nondecr_cons in IH |- *. destruct IH as [I1 I2]. split; [|exact I2]. intros b B. specialize (I1 b B). lia.
  - rewrite (R e (or_introl eq_refl)). split; [exact M|exact IH].
Qed.
Lemma paced_run ft : 0 < ft -> forall ops f f' es, srun f ops = (f', es) -> 0 <= syncTs f -> frameTime f = ft -> Forall noFrameTime ops ->
  exists ts, picks ts (processed es) /\ (forall n t, nth_error ts n = Some t -> syncTs f + Z.of_nat n * ft <= t) /\ paced ft ts /\ nondecr ts.
Proof.
  intros F. induction ops as [|o ops IH]; intros f f' es E S FT N; cbn [srun] in E.
  - injection E as <- <-. exists []. split; [constructor|]. split; [intros [|n] t H; discriminate|]. split; [intros a b ta tb _ H; destruct a; discriminate|constructor].
  - destruct (sstep f o) as [f1 e1] eqn:E1. destruct (srun f1 ops) as [f2 e2] eqn:E2. injection E as <- <-. pose proof (sstep_ref f o f1 e1 E1 S) as [M _].
    assert (FT1 : frameTime f1 = ft). { destruct o; cbn [sstep] in E1; try (injection E1 as <- <-; exact FT); [|destruct (Forall_inv N)]. destruct (round full dst f) as [[a b] c] eqn:R. injection E1 as <- <-. apply round_spec in R; [|exact S]. destruct R as (R & _). congruence. }
    destruct (IH f1 f2 e2 E2 ltac:(lia) FT1 (Forall_inv_tail N)) as (ts & P & LB & PA & ND).
    assert (SKIP : filter done e1 = [] -> exists ts, picks ts (processed (e1 ++ e2)) /\ (forall n t, nth_error ts n = Some t -> syncTs f + Z.of_nat n * ft <= t) /\ paced ft ts /\ nondecr ts).
    { intros K. exists ts. unfold processed. rewrite filter_app, K. cbn [app]. split; [exact P|]. split; [intros n t H; specialize (LB n t H); lia|split; [exact PA|exact ND]]. }
    destruct o as [i t|full dst|t|i|i]; cbn [sstep] in E1; try (injection E1 as <- <-; apply SKIP; reflexivity). destruct (round full dst f) as [[fa ok] fr] eqn:R. injection E1 as <- <-. destruct ok; [|apply SKIP; reflexivity]. clear SKIP.
    apply round_spec in R; [|exact S]. destruct R as (_ & _ & _ & R). destruct (R ltac:(lia)) as (R1 & _). destruct (R1 eq_refl) as (R2 & (x & X1 & X2) & _). exists (snd x :: ts). unfold processed. cbn [app filter done map taken]. split; [constructor; [apply in_map, X1|exact P]|].
    assert (LX : forall n t, nth_error ts n = Some t -> snd x + Z.of_nat n * ft <= t) by (intros n t H; specialize (LB n t H); lia).
    split; [|split].
    + intros [|n] t H; [injection H as <-; lia|]. cbn [nth_error] in H. specialize (LB n t H). lia.
    + intros a b ta tb L Ha Hb. destruct b as [|b]; [lia|]. cbn [nth_error] in Hb. destruct a as [|a].
      * injection Ha as <-. specialize (LX b tb Hb). lia.
      * cbn [nth_error] in Ha. specialize (PA a b ta tb ltac:(lia) Ha Hb). lia.
    + apply nondecr_cons. split; [|exact ND]. intros b B. apply In_nth_error in B. destruct B as (n & B). specialize (LX n b B). lia.
Qed.

(** *** Queues *)
Lemma in_fronts ids m i t : In (i, t) (fronts ids m) <-> In i ids /\ exists q, mfind i m = Some (t :: q).
Proof.
  unfold fronts. rewrite in_flat_map. split.
  - intros (j & J & H). destruct (mfind j m) as [[|u q]|] eqn:E; try destruct H. + injection H as <- <-. split; [exact J|exists q; exact E]. + destruct H.
  - intros (J & q & E). exists i. split; [exact J|]. rewrite E. left. reflexivity.
Qed.
Lemma fronts_nodup ids m : NoDup ids -> NoDup (map fst (fronts ids m)).
Proof.
  induction 1 as [|i ids H _ IH]; [constructor|]. cbn [fronts flat_map]. rewrite map_app. fold (fronts ids m). destruct (mfind i m) as [[|t q]|]; cbn [map app fst]; try exact IH. constructor; [|exact IH].
  intros C. apply in_map_iff in C. destruct C as ([j u] & E & C). cbn in E. subst j. apply in_fronts in C. apply H, C.
Qed.
Lemma mfind_dropFront m i j : mfind j (dropFront m i) = if j =? i then match mfind j m with Some (_ :: q) => Some q | x => x end else mfind j m.
Proof.
  unfold dropFront. destruct (Z.eqb_spec j i) as [->|N].
  - destruct (mfind i m) as [[|t q]|] eqn:E; rewrite ?mfind_mset_eq, ?E; reflexivity.
  - destruct (mfind i m) as [[|t q]|]; [reflexivity| |reflexivity]. apply mfind_mset_neq. exact N.
Qed.
Lemma mfind_removeFrames : forall l m j, NoDup l -> mfind j (removeFrames l m) = if in_dec Z.eq_dec j l then match mfind j m with Some (_ :: q) => Some q | x => x end else mfind j m.
Proof.
  induction l as [|i l IH]; intros m j N; [reflexivity|]. inversion N as [|? ? N1 N2]; subst. unfold removeFrames in *. cbn [fold_left]. rewrite IH by exact N2. rewrite mfind_dropFront.
  destruct (in_dec Z.eq_dec j (i :: l)) as [I|I]; destruct (in_dec Z.eq_dec j l) as [J|J]; destruct (Z.eqb_spec j i) as [->|D]; try reflexivity; try contradiction; try (exfalso; apply I; cbn; auto; fail).
  destruct I as [->|I]; [congruence|contradiction].
Qed.
Lemma filter_nodup {A B} (g : A -> B) p : forall l, NoDup (map g l) -> NoDup (map g (filter p l)).
Proof.
  induction l as [|x l IH]; intros H; [constructor|]. inversion H as [|? ? H1 H2]; subst. cbn [filter]. destruct (p x); [|apply IH, H2]. cbn [map]. constructor; [|apply IH, H2]. intros C. apply H1. apply in_map_iff in C. destruct C as (y & E & C). apply filter_In in C. apply in_map_iff. exists y. split; [exact E|apply C].
Qed.
Lemma framesSync_nodup full f : msorted (ins f) -> NoDup (framesSync full f).
Proof.
  intros S. pose proof (mkeys_nodup _ _ S) as K. unfold framesSync. destruct (negb (sync f)); [exact K|]. cbv zeta. destruct (existsb _ _ || _); [|exact K]. apply filter_nodup. exact K.
Qed.
Lemma round_queues full dst f f' ok fr : round full dst f = (f', ok, fr) -> msorted (ins f) -> exists ids, NoDup ids /\ fr = fronts ids (ins f) /\ ins f' = removeFrames (map fst fr) (ins f) /\
  (ids = [] \/ frameTime f <= 0 /\ ids = framesSync full f \/ 0 < frameTime f /\ ids = mkeys (ins f)).
Proof.
  intros R S. unfold round in R. pose proof (mkeys_nodup _ _ S) as K. pose proof (framesSync_nodup full f S) as K2. destruct (mkeys (ins f)) as [|k ks] eqn:EK.
  - injection R as <- <- <-. exists []. split; [constructor|]. repeat split; auto.
  - destruct (framesSync full f) as [|i l] eqn:EF.
    + injection R as <- <- <-. exists []. split; [constructor|]. repeat split; auto.
    + destruct (Z.leb_spec (frameTime f) 0) as [L|L].
      * injection R as <- <- <-. exists (i :: l). split; [exact K2|]. repeat split. right. left. auto.
      * destruct (frameTimeDemand f (fronts (k :: ks) (ins f))) as [o s]. injection R as <- <- <-. exists (k :: ks). split; [exact K|]. repeat split. right. right. auto.
Qed.
Lemma msorted_remove : forall l m, msorted m -> msorted (removeFrames l m).
Proof.
  induction l as [|i l IH]; intros m S; [exact S|]. unfold removeFrames in *. cbn [fold_left]. apply IH. unfold dropFront. destruct (mfind i m) as [[|t q]|]; try exact S. apply msorted_mset, S.
Qed.
Lemma sstep_sorted f o f' es : sstep f o = (f', es) -> msorted (ins f) -> msorted (ins f').
Proof.
  intros E S. destruct o as [i t|full dst|ft|i|i]; cbn [sstep] in E.
  - injection E as <- <-. cbn [ins]. unfold push. destruct (mfind i (ins f)); [apply msorted_mset, S|exact S].
  - destruct (round full dst f) as [[a b] c] eqn:R. injection E as <- <-. apply round_queues in R; [|exact S]. destruct R as (ids & _ & _ & -> & _). apply msorted_remove, S.
  - injection E as <- <-. exact S.
  - injection E as <- <-. cbn [ins]. destruct (mfind i (ins f)); [exact S|apply msorted_mset, S].
  - injection E as <- <-. cbn [ins]. apply msorted_mdel, S.
Qed.
Lemma taken_fronts ids m i : NoDup ids -> flat_map (fun x => if fst x =? i then [snd x] else []) (fronts ids m) = if in_dec Z.eq_dec i ids then match mfind i m with Some (t :: _) => [t] | _ => [] end else [].
Proof.
  induction 1 as [|j ids H N IH]; [reflexivity|]. cbn [fronts flat_map]. rewrite flat_map_app. fold (fronts ids m). rewrite IH. destruct (in_dec Z.eq_dec i (j :: ids)) as [I|I].
  - destruct (Z.eq_dec j i) as [->|D].
    + destruct (in_dec Z.eq_dec i ids); [contradiction|]. destruct (mfind i m) as [[|t q]|]; cbn [flat_map app fst snd]; rewrite ?Z.eqb_refl; reflexivity.
    + destruct I as [I|I]; [congruence|]. destruct (in_dec Z.eq_dec i ids); [|contradiction]. assert (E : (j =? i) = false) by (apply Z.eqb_neq; exact D). destruct (mfind j m) as [[|t q]|]; cbn [flat_map app fst snd]; rewrite ?E; reflexivity.
  - destruct (in_dec Z.eq_dec i ids); [exfalso; apply I; right; assumption|]. assert (E : (j =? i) = false) by (apply Z.eqb_neq; intros ->; apply I; left; reflexivity). destruct (mfind j m) as [[|t q]|]; cbn [flat_map app fst snd]; rewrite ?E; reflexivity.
Qed.
Lemma sstep_fifo f o f' es i q : sstep f o = (f', es) -> msorted (ins f) -> o <> DelInput i -> mfind i (ins f) = Some q -> exists q', mfind i (ins f') = Some q' /\ takenFrom i es ++ q' = q ++ arrivals i [o].
Proof.
  intros E S N Q. destruct o as [j t|full dst|ft|j|j]; cbn [sstep] in E.
  - injection E as <- <-. cbn [ins takenFrom flat_map app arrivals]. unfold push. destruct (Z.eqb_spec j i) as [->|D].
    + rewrite Q. exists (q ++ [t]). split; [apply mfind_mset_eq|]. rewrite ?app_nil_r. reflexivity.
    + exists q. split; [destruct (mfind j (ins f)); [rewrite mfind_mset_neq by congruence|]; exact Q|]. rewrite app_nil_r. reflexivity.
  - destruct (round full dst f) as [[a b] fr] eqn:R. injection E as <- <-. apply round_queues in R; [|exact S]. destruct R as (ids & ND & -> & -> & _).
    rewrite mfind_removeFrames by (apply fronts_nodup, ND). cbn [takenFrom flat_map taken arrivals app]. rewrite !app_nil_r. rewrite taken_fronts by exact ND. rewrite Q.
    assert (IFF : In i (map fst (fronts ids (ins f))) <-> In i ids /\ exists t q0, q = t :: q0).
    { rewrite in_map_iff. split; [intros ([j u] & E & C); cbn in E; subst j; apply in_fronts in C; destruct C as (C & q0 & C2); rewrite Q in C2; injection C2 as ->; eauto|intros (C & t & q0 & ->); exists (i, t); split; [reflexivity|]; apply in_fronts; eauto]. }
    destruct (in_dec Z.eq_dec i (map fst (fronts ids (ins f)))) as [I|I].
    + apply IFF in I. destruct I as (I & t & q0 & ->). destruct (in_dec Z.eq_dec i ids); [|contradiction]. exists q0. split; reflexivity.
    + exists q. split; [reflexivity|]. destruct (in_dec Z.eq_dec i ids) as [J|J]; [|reflexivity]. destruct q as [|t q0]; [reflexivity|]. exfalso. apply I, IFF. eauto.
  - injection E as <- <-. exists q. split; [exact Q|]. cbn. rewrite app_nil_r. reflexivity.
  - injection E as <- <-. exists q. split; [|cbn; rewrite app_nil_r; reflexivity]. cbn [ins]. destruct (Z.eq_dec i j) as [->|D]; [rewrite Q; exact Q|]. destruct (mfind j (ins f)); [exact Q|]. rewrite mfind_mset_neq by exact D. exact Q.
  - injection E as <- <-. exists q. split; [|cbn; rewrite app_nil_r; reflexivity]. cbn [ins]. rewrite mfind_mdel_neq by congruence. exact Q.
Qed.
Lemma srun_fifo i : forall ops f f' es q, srun f ops = (f', es) -> msorted (ins f) -> ~ In (DelInput i) ops -> mfind i (ins f) = Some q -> exists q', mfind i (ins f') = Some q' /\ takenFrom i es ++ q' = q ++ arrivals i ops.
Proof.
  induction ops as [|o ops IH]; intros f f' es q E S N Q; cbn [srun] in E.
  - injection E as <- <-. exists q. split; [exact Q|]. cbn. rewrite app_nil_r. reflexivity.
  - destruct (sstep f o) as [f1 e1] eqn:E1. destruct (srun f1 ops) as [f2 e2] eqn:E2. injection E as <- <-. destruct (sstep_fifo f o f1 e1 i q E1 S) as (q1 & Q1 & T1); [intros ->; apply N; left; reflexivity|exact Q|].
    destruct (IH f1 f2 e2 q1 E2 (sstep_sorted _ _ _ _ E1 S)) as (q2 & Q2 & T2); [intros C; apply N; right; exact C|exact Q1|]. exists q2. split; [exact Q2|].
    unfold takenFrom in *. rewrite flat_map_app, <- app_assoc, T2, app_assoc, T1. unfold arrivals. cbn [flat_map]. rewrite app_nil_r, <- app_assoc. reflexivity.
Qed.
Lemma taken_in i t es : In t (takenFrom i es) <-> exists e, In e es /\ In (i, t) (taken e).
Proof.
  unfold takenFrom. rewrite in_flat_map. split; intros (e & E & H); exists e; (split; [exact E|]).
  - apply in_flat_map in H. destruct H as ([j u] & J & H). cbn [fst snd] in H. destruct (Z.eqb_spec j i) as [->|]; [destruct H as [<-|[]]; exact J|destruct H].
  - apply in_flat_map. exists (i, t). split; [exact H|]. cbn [fst snd]. rewrite Z.eqb_refl. left. reflexivity.
Qed.

(** *** Synchronisation *)
Lemma wall_spec : forall (m : zmap (list Z)) w, let w' := fold_left (fun w x => if w <? currentTime (snd x) then currentTime (snd x) else w) m w in
  w <= w' /\ (forall x, In x m -> currentTime (snd x) <= w') /\ (w' = w \/ exists x, In x m /\ currentTime (snd x) = w').
Proof.
  induction m as [|x m IH]; intros w; cbv zeta; cbn [fold_left]; [split; [lia|]; split; [intros x []|left; reflexivity]|].
  specialize (IH (if w <? currentTime (snd x) then currentTime (snd x) else w)). cbv zeta in IH. destruct IH as (A & B & C).
  destruct (Z.ltb_spec w (currentTime (snd x))).
  - split; [lia|]. split; [intros y [<-|Y]; [exact A|apply B, Y]|]. right. destruct C as [C|(y & Y & C)]; [exists x; split; [left; reflexivity|congruence]|exists y; split; [right; exact Y|exact C]].
  - split; [lia|]. split; [intros y [<-|Y]; [lia|apply B, Y]|]. destruct C as [C|(y & Y & C)]; [left; exact C|right; exists y; split; [right; exact Y|exact C]].
Qed.
(** Times are times, not the NO_DTS mark. *)
Definition timed (m : zmap (list Z)) : Prop := forall i q t, mfind i m = Some q -> In t q -> 0 <= t.
Lemma current_front m i q : timed m -> mfind i m = Some q -> (currentTime q = -1 <-> q = []).
Proof.
  intros T F. destruct q as [|t q]; [split; reflexivity|]. cbn [currentTime]. specialize (T i (t :: q) t F (or_introl eq_refl)). split; [lia|discriminate].
Qed.
Lemma sync_spec full f i t : sync f = true -> msorted (ins f) -> timed (ins f) -> In i (framesSync full f) -> front f i t ->
  full i = true \/ (exists j t', front f j t' /\ t < t' - syncMargin) \/
  ((forall j, input f j -> full j = false /\ exists t', front f j t' /\ t - syncMargin <= t' <= t + syncMargin) /\ framesSync full f = mkeys (ins f)).
Proof.
  intros SY S T I (q & F). unfold framesSync in *. rewrite SY in *. cbn [negb] in *. cbv zeta in *.
  destruct (wall_spec (ins f) 0) as (W0 & W1 & W2). fold (wallClock (ins f)) in W0, W1, W2. set (w := wallClock (ins f)) in *.
  set (p := fun x : Z * list Z => negb (currentTime (snd x) =? NO_DTS) && (full (fst x) || (w - syncMargin >? currentTime (snd x)))) in *.
  set (pass := map fst (filter p (ins f))) in *.
  assert (PASS : forall k, In k pass -> exists q, mfind k (ins f) = Some q /\ p (k, q) = true).
  { intros k K. apply in_map_iff in K. destruct K as ([k' q'] & E & K). cbn in E. subst k'. apply filter_In in K. destruct K as [K1 K2]. exists q'. split; [apply (In_mfind _ None), K1; exact S|exact K2]. }
  destruct (existsb (fun x => currentTime (snd x) =? NO_DTS) (ins f) || negb match pass with [] => true | _ => false end) eqn:EE.
  - destruct (PASS i I) as (q' & F' & P). rewrite F in F'. injection F' as <-. unfold p in P. cbn [fst snd currentTime] in P. apply andb_true_iff in P. destruct P as [_ P]. apply orb_true_iff in P. destruct P as [P|P]; [left; exact P|]. right. left.
    apply Z.gtb_lt in P. destruct W2 as [W2|([j qj] & J & W2)]; [specialize (T i _ t F (or_introl eq_refl)); unfold syncMargin in P; lia|]. cbn [snd] in W2. apply (In_mfind _ None) in J; [|exact S].
    destruct qj as [|t' qj]; [cbn in W2; unfold NO_DTS, syncMargin in *; specialize (T i _ t F (or_introl eq_refl)); lia|]. exists j, t'. split; [exists qj; exact J|]. cbn in W2. lia.
  - apply orb_false_iff in EE. destruct EE as [E1 E2]. right. right. split; [|reflexivity]. apply negb_false_iff in E2. destruct pass as [|k l] eqn:EP; [|discriminate].
    assert (NP : forall j qj, mfind j (ins f) = Some qj -> p (j, qj) = false).
    { intros j qj J. destruct (p (j, qj)) eqn:P; [|reflexivity]. exfalso. assert (In j pass) by (unfold pass; apply in_map_iff; exists (j, qj); split; [reflexivity|]; apply filter_In; split; [apply mfind_In, J|exact P]). rewrite EP in H. exact H. }
    assert (NE : forall j qj, mfind j (ins f) = Some qj -> exists tj r, qj = tj :: r /\ full j = false /\ w - syncMargin <= tj <= w).
    { intros j qj J. assert (C : currentTime qj <> NO_DTS). { intros C. assert (existsb (fun x => currentTime (snd x) =? NO_DTS) (ins f) = true) by (apply existsb_exists; exists (j, qj); split; [apply mfind_In, J|apply Z.eqb_eq, C]). congruence. }
      destruct qj as [|tj r]; [exfalso; apply C; reflexivity|]. exists tj, r. split; [reflexivity|]. pose proof (NP j _ J) as P. unfold p in P. cbn [fst snd] in P. cbn [currentTime] in *. destruct (Z.eqb_spec tj NO_DTS); [contradiction|]. cbn [negb andb] in P. apply orb_false_iff in P. destruct P as [P1 P2]. split; [exact P1|].
      specialize (W1 (j, tj :: r) (mfind_In _ _ _ J)). cbn in W1. destruct (Z.gtb_spec (w - syncMargin) tj); [discriminate|]. lia. }
    destruct (NE i _ F) as (ti & ri & E & _ & B). injection E as <- <-. intros j (qj & J). destruct (NE j qj J) as (tj & r & -> & FJ & BJ). split; [exact FJ|]. exists tj. split; [exists r; exact J|]. lia.
Qed.
Lemma nondecr_suffix a b : nondecr (a ++ b) -> nondecr b.
Proof. induction a as [|x a IH]; intros H; [exact H|]. cbn [app] in H. apply nondecr_cons in H. apply IH, H. Qed.
Lemma nondecr_head a l x : nondecr (a :: l) -> In x (a :: l) -> a <= x.
Proof. intros H [<-|X]; [lia|]. apply nondecr_cons in H. apply H, X. Qed.
Record dual (a b : Z) (f : filt) (ops : list sop) : Prop := {
  d_sync : sync f = true; d_ft : frameTime f <= 0; d_st : 0 <= syncTs f; d_sorted : msorted (ins f); d_in : forall k, input f k <-> k = a \/ k = b; d_plain : Forall plain ops; d_full : Forall neverFull ops;
  d_mono : forall i q, mfind i (ins f) = Some q -> nondecr (q ++ arrivals i ops) /\ forall t, In t (q ++ arrivals i ops) -> 0 <= t }.
Lemma plain_nodel o ops i : Forall plain (o :: ops) -> ~ In (DelInput i) (o :: ops).
Proof. intros P C. rewrite Forall_forall in P. exact (P _ C). Qed.
Lemma dual_step a b f o ops f1 e1 : dual a b f (o :: ops) -> sstep f o = (f1, e1) -> dual a b f1 ops.
Proof.
  intros [D1 D2 D3 D4 D5 D6 D7 D8] E. assert (PO := Forall_inv D6).
  assert (K : sync f1 = true /\ frameTime f1 <= 0 /\ 0 <= syncTs f1).
  { destruct o; try destruct PO; cbn [sstep] in E; [injection E as <- <-; auto|]. destruct (round full dst f) as [[x y] z] eqn:R. injection E as <- <-. apply round_spec in R; [|exact D3]. destruct R as (R1 & R2 & R3 & _). rewrite R1, R2, (R3 D2). auto. }
  assert (N : forall i, o <> DelInput i) by (intros i ->; exact PO).
  assert (FW : forall i q, mfind i (ins f) = Some q -> exists q', mfind i (ins f1) = Some q' /\ takenFrom i e1 ++ q' = q ++ arrivals i [o]) by (intros i q Q; exact (sstep_fifo f o f1 e1 i q E D4 (N i) Q)).
  assert (BK : forall i, mfind i (ins f) = None -> mfind i (ins f1) = None).
  { intros i Q. destruct o as [j t|full dst|?|?|?]; try destruct PO; cbn [sstep] in E.
    - injection E as <- <-. cbn [ins]. unfold push. destruct (mfind j (ins f)) eqn:J; [|exact Q]. rewrite mfind_mset_neq; [exact Q|]. intros ->. congruence.
    - destruct (round full dst f) as [[x y] z] eqn:R. injection E as <- <-. apply round_queues in R; [|exact D4]. destruct R as (ids & ND & -> & -> & _). rewrite mfind_removeFrames by (apply fronts_nodup, ND). rewrite Q. destruct (in_dec _ _ _); reflexivity. }
  constructor; try apply K; [apply (sstep_sorted _ _ _ _ E D4)| |exact (Forall_inv_tail D6)|exact (Forall_inv_tail D7)|].
  - intros k. rewrite <- D5. split; intros (q & Q).
    + destruct (mfind k (ins f)) as [q0|] eqn:Q0; [exists q0; exact Q0|]. rewrite (BK k Q0) in Q. discriminate.
    + destruct (FW k q Q) as (q' & Q' & _). exists q'. exact Q'.
  - intros i q Q. destruct (mfind i (ins f)) as [q0|] eqn:Q0; [|rewrite (BK i Q0) in Q; discriminate]. destruct (FW i q0 Q0) as (q' & Q' & T). rewrite Q' in Q. injection Q as <-. destruct (D8 i q0 Q0) as [M P].
    assert (EQ : q0 ++ arrivals i (o :: ops) = takenFrom i e1 ++ (q' ++ arrivals i ops)) by (rewrite app_assoc, T; unfold arrivals; cbn [flat_map]; rewrite app_nil_r, <- app_assoc; reflexivity).
    rewrite EQ in M, P. split; [apply nondecr_suffix in M; exact M|]. intros t H. apply P, in_or_app. right. exact H.
Qed.
Lemma dual_order a b : forall ops f f' es, dual a b f ops -> srun f ops = (f', es) ->
  forall es1 e es2 e' i j t t', es = es1 ++ e :: es2 -> In e' (e :: es2) -> In (i, t) (taken e) -> In (j, t') (taken e') -> t' >= t - syncMargin.
Proof.
  induction ops as [|o ops IH]; intros f f' es D E es1 e es2 e' i j t t' EE I1 I2 I3; pose proof E as E0; cbn [srun] in E; [injection E as <- <-; destruct es1; discriminate|].
  destruct (sstep f o) as [f1 e1] eqn:E1. destruct (srun f1 ops) as [f2 e2] eqn:E2. injection E as <- <-. pose proof (dual_step a b f o ops f1 e1 D E1) as D1.
  assert (L : e1 = [] \/ exists full dst ok fr, o = Round full dst /\ round full dst f = (f1, ok, fr) /\ e1 = [mkE ok fr (syncTs f1)]).
  { destruct o; cbn [sstep] in E1; try (injection E1 as <- <-; left; reflexivity). destruct (round full dst f) as [[x y] z] eqn:R. injection E1 as <- <-. right. exists full, dst, y, z. auto. }
  destruct L as [->|(full & dst & ok & fr & -> & R & ->)]; [eapply IH; eassumption|]. destruct es1 as [|e0 es1].
  - cbn [app] in EE. assert (EX : e = mkE ok fr (syncTs f1) /\ es2 = e2) by (injection EE as <- <-; auto). destruct EX as [-> ->].
    cbn [taken] in I2. destruct D as [S1 S2 S3 S4 S5 S6 S7 S8].
    apply round_queues in R; [|exact S4]. destruct R as (ids & ND & -> & EI & IDS). apply in_fronts in I2. destruct I2 as (I2 & qi & QI). destruct IDS as [->|[(_ & ->)|(L & _)]]; [destruct I2| |lia].
    assert (TM : timed (ins f)) by (intros k q u Q U; apply (S8 k q Q), in_or_app; left; exact U).
    assert (NF : forall k, full k = false) by exact (Forall_inv S7).
    assert (TJ : In t' (takenFrom j (mkE ok (fronts (framesSync full f) (ins f)) (syncTs f1) :: e2))) by (apply taken_in; exists e'; auto).
    assert (GJ : forall qj, mfind j (ins f) = Some qj -> In t' (qj ++ arrivals j (Round full dst :: ops))).
    { intros qj QJ. destruct (srun_fifo j (Round full dst :: ops) f f2 _ qj E0 S4 (plain_nodel _ _ _ S6) QJ) as (q2 & _ & T2). rewrite <- T2. apply in_or_app. left. exact TJ. }
    assert (HJ : forall tj, front f j tj -> t' >= tj). { intros tj (r & FJ). destruct (S8 j _ FJ) as [M _]. pose proof (nondecr_head _ _ t' M (GJ _ FJ)). lia. }
    destruct (Z.eq_dec i j) as [->|NEQ].
    + assert (t' >= t) by (apply HJ; exists qi; exact QI). unfold syncMargin. lia.
    + assert (INJ : input f j).
      { destruct (mfind j (ins f)) as [qj|] eqn:QJ; [exists qj; exact QJ|]. exfalso.
        (* an input that does not exist gives nothing *)
        assert (NJ : ~ (j = a \/ j = b)) by (intros C; apply S5 in C; destruct C as (q & C); congruence).
        assert (G : forall ops f f' es, dual a b f ops -> srun f ops = (f', es) -> takenFrom j es = []).
        { clear - NJ. induction ops as [|o ops IH]; intros f f' es D E; cbn [srun] in E; [injection E as <- <-; reflexivity|]. destruct (sstep f o) as [f1 e1] eqn:E1. destruct (srun f1 ops) as [f2 e2] eqn:E2. injection E as <- <-.
          unfold takenFrom. rewrite flat_map_app. fold (takenFrom j e1). fold (takenFrom j e2). rewrite (IH f1 f2 e2 (dual_step a b f o ops f1 e1 D E1) E2), app_nil_r.
          destruct o; cbn [sstep] in E1; try (injection E1 as <- <-; reflexivity). destruct (round full dst f) as [[x y] z] eqn:R. injection E1 as <- <-. apply round_queues in R; [|apply D]. destruct R as (ids & ND & -> & _ & _). cbn [takenFrom flat_map taken]. rewrite app_nil_r, taken_fronts by exact ND.
          destruct (mfind j (ins f)) as [q|] eqn:Q; [exfalso; apply NJ; apply (d_in _ _ _ _ D); exists q; exact Q|]. destruct (in_dec _ _ _); reflexivity. }
        pose proof (G (Round full dst :: ops) f f2 _ (Build_dual a b f _ S1 S2 S3 S4 S5 S6 S7 S8) E0) as G0. cbn [app] in G0. rewrite G0 in TJ. exact TJ. }
      destruct (sync_spec full f i t S1 S4 TM I2 (ex_intro _ qi QI)) as [C|[(k & tk & K & B)|(ALL & _)]].
      * rewrite NF in C. discriminate.
      * assert (KJ : k = j).
        { assert (IK : input f k) by (destruct K as (r & K); eexists; exact K). assert (II : input f i) by (eexists; exact QI). apply S5 in IK, II. apply S5 in INJ. destruct (Z.eq_dec k i) as [->|NK]; [|destruct IK, II, INJ; congruence].
          destruct K as (r & K). rewrite QI in K. injection K as -> ->. unfold syncMargin in B. lia. }
        subst k. pose proof (HJ tk K). unfold syncMargin in *. lia.
      * destruct (ALL j INJ) as (_ & tj & FJ & BJ). pose proof (HJ tj FJ). lia.
  - cbn [app] in EE. injection EE as _ EE. eapply (IH f1 f2 e2 D1 E2); eassumption.
Qed.
Lemma sync_progress full f : sync f = true -> msorted (ins f) -> timed (ins f) -> ins f <> [] -> (forall j q, mfind j (ins f) = Some q -> q <> []) -> framesSync full f <> [].
Proof.
  intros SY S T NE H. unfold framesSync. rewrite SY. cbn [negb]. cbv zeta. set (pass := map fst _). destruct pass as [|k l] eqn:EP.
  - assert (EX : existsb (fun x => currentTime (snd x) =? NO_DTS) (ins f) = false).
    { destruct (existsb _ _) eqn:X; [|reflexivity]. apply existsb_exists in X. destruct X as ([j q] & J & X). cbn [snd] in X. apply Z.eqb_eq in X. apply (In_mfind _ None) in J; [|exact S]. apply (current_front _ j q T J) in X. exfalso. exact (H j q J X). }
    rewrite EX. cbn [negb orb]. unfold mkeys. destruct (ins f); [congruence|discriminate].
  - destruct (_ || _) eqn:X; [discriminate|]. apply orb_false_iff in X. destruct X as [_ X]. discriminate X.
Qed.
