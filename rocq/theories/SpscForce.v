(** The forced writer beside a reader: what the reader gets when it takes no frame out between the writer's check
    and its flush. *)
From Verif Require Import Base RingIface RingModel RingSpec RingProofs SpscModel SpscSpec SpscProofs.

Section Force.
Context {V : Type}.
Variable K : nat.
Notation frame := (list V).

Notation kept1 := (@kept1 V).
Notation kept := (@kept V K).
Notation calm := (@calm V K).

Definition fwok (s : st V) (p : list frame) : Prop :=
  match wp s with
  | WFlush r => r = rrear (mem s) /\ length p + 1 = rmax (mem s)
  | _ => wok K s p
  end.
Definition frok (s : st V) (p : list frame) : Prop :=
  match rp s with
  | RIdle => True
  | RChk r => exists n, n < rmax (mem s) /\ r = (rfront (mem s) + n) mod rmax (mem s) /\ (n <> 0 -> p <> [])
  | RRmChk f r => (exists t, p = f :: t) /\
      exists n, n < rmax (mem s) /\ r = (rfront (mem s) + n) mod rmax (mem s)
  | _ => rok s p
  end.
Definition FInv (s : st V) (k : list frame) : Prop :=
  3 <= rmax (mem s) /\ length (pub s) = length k + rlost (mem s) /\
  exists p, mem_ok K (mem s) p /\ fwok s p /\ frok s p /\ k = got s ++ p.


Lemma removelast_length {A} (l : list A) : length (removelast l) = length l - 1.
Proof. induction l as [|x [|y l] IH]; [reflexivity|reflexivity|]. change (removelast (x :: y :: l)) with (x :: removelast (y :: l)). cbn [length] in *. lia. Qed.
Lemma nth_removelast {A} (l : list A) k : k + 1 < length l -> nth_error (removelast l) k = nth_error l k.
Proof.
  revert k; induction l as [|x [|y l] IH]; intros k H; [cbn in H; lia|cbn in H; lia|].
  change (removelast (x :: y :: l)) with (x :: removelast (y :: l)). destruct k; [reflexivity|]. cbn [nth_error]. apply IH. cbn [length] in *. lia.
Qed.

Lemma fwriter s f force s' k : FInv s k -> wstep K s f force = Some s' ->
  FInv s' (match wp s with WFlush _ => removelast k | WAddSt g _ => k ++ [g] | _ => k end).
Proof.
  intros (M3 & HL & p & HM & HW & HR & HP) Hs.
  pose proof (rear_in K _ _ HM) as Hrin.
  pose proof (rear_full K _ _ HM) as Hfull.
  assert (HM0 := HM).
  destruct HM as (H1 & Hf & Hr & Hs0 & Hl & Hc & HK).
  destruct s as [q w r pu go]; cbn [mem wp rp pub got] in *.
  unfold wstep in Hs; cbn [mem wp rp pub got setwp setmem] in Hs.
  unfold fwok, wok in HW; cbn [wp mem] in HW.
  destruct w as [|r0|i|i g j|g|g r0|g r0|r0].
  + inversion Hs; subst s'. split; [exact M3|]. split; [exact HL|]. exists p. repeat split; auto.
  + subst r0. rewrite Hfull in Hs.
    destruct (Nat.eqb_spec (length p + 1) (rmax q)) as [Ee|Ee].
    * destruct force; inversion Hs; subst s'; (split; [exact M3|]); (split; [exact HL|]); exists p; repeat split; auto.
    * inversion Hs; subst s'. split; [exact M3|]. split; [exact HL|]. exists p.
      split; [exact HM0|]. split; [|split; [exact HR|exact HP]].
      cbn. unfold room; cbn. split; [reflexivity|lia].
  + destruct (Nat.eqb_spec (length f) K) as [Ef|]; [|discriminate].
    inversion Hs; subst s'. split; [exact M3|]. split; [exact HL|]. exists p.
    split; [exact HM0|]. split; [|split; [exact HR|exact HP]].
    destruct HW as [-> Hroom]. cbn. split; [reflexivity|]. split; [exact Hroom|].
    split; [exact Ef|]. split; [lia|].
    destruct (nth_error (rslots q) (rrear q)) as [old|] eqn:En.
    * exists old; auto.
    * apply nth_error_None in En. lia.
  + destruct HW as (-> & Hroom & Hg & Hk & old & Hold & Hfn).
    pose proof (HK _ _ Hold) as Hlold.
    destruct (nth_error g j) as [v|] eqn:Eg.
    * rewrite Hold in Hs. inversion Hs; subst s'; clear Hs.
      assert (Hkk : j < K).
      { rewrite <- Hg. apply nth_error_Some. congruence. }
      split; [exact M3|]. split; [exact HL|]. exists p. split; [|split; [|split; [|exact HP]]].
      -- unfold mem_ok; cbn [setwp setmem mem set_slots rmax rfront rrear rslots].
         split; [exact H1|]. split; [exact Hf|]. split; [exact Hr|].
         split; [rewrite upd_length; exact Hs0|]. split; [exact Hl|]. split.
         ++ intros m Hj. unfold pos; cbn [set_slots rmax rfront].
            rewrite nth_error_upd_neq; [apply Hc; exact Hj|].
            apply not_eq_sym, (pos_neq_rear K q p m HM0 Hj).
         ++ apply upd_len_ok; auto. rewrite upd_length; exact Hlold.
      -- cbn. split; [reflexivity|]. split; [exact Hroom|]. split; [exact Hg|].
         split; [lia|]. exists (upd old j v). split.
         ++ apply nth_error_upd_eq. lia.
         ++ rewrite firstn_upd by lia. rewrite (firstn_S_nth _ _ _ Eg), Hfn. reflexivity.
      -- exact HR.
    * inversion Hs; subst s'; clear Hs. split; [exact M3|]. split; [exact HL|]. exists p.
      split; [exact HM0|]. split; [|split; [exact HR|exact HP]].
      apply nth_error_None in Eg.
      cbn. split; [exact Hroom|]. split; [exact Hg|].
      rewrite Hold. f_equal.
      rewrite !firstn_all2 in Hfn by lia. exact Hfn.
  + inversion Hs; subst s'. split; [exact M3|]. split; [exact HL|]. exists p.
    split; [exact HM0|]. split; [|split; [exact HR|exact HP]].
    cbn. destruct HW as (A & B & C). auto.
  + destruct HW as (-> & Hroom & Hg & Hsl). rewrite Hfull in Hs.
    destruct (Nat.eqb_spec (length p + 1) (rmax q)) as [Ee|Ee].
    * unfold room in Hroom; cbn in Hroom; lia.
    * inversion Hs; subst s'. split; [exact M3|]. split; [exact HL|]. exists p.
      split; [exact HM0|]. split; [|split; [exact HR|exact HP]]. cbn; auto.
  + destruct HW as (-> & Hroom & Hg & Hsl).
    inversion Hs; subst s'; clear Hs. split; [exact M3|]. split; [cbn; rewrite !app_length in *; cbn [length] in *; lia|]. exists (p ++ [g]).
    unfold room in Hroom; cbn [mem] in Hroom.
    split; [|split; [exact I|split]].
    * unfold mem_ok; cbn [mem set_rear rmax rfront rrear rslots].
      rewrite app_length; cbn [length].
      split; [exact H1|]. split; [exact Hf|].
      split; [|split; [exact Hs0|split; [lia|split; [|exact HK]]]].
      -- rewrite Hr, Nat.add_mod_idemp_l by lia. f_equal; lia.
      -- intros m Hk. unfold pos; cbn [set_rear rmax rfront].
         destruct (Nat.eq_dec m (length p)) as [->|Hne].
         ++ rewrite nth_error_app2, Nat.sub_diag by lia. cbn [nth_error].
            rewrite <- Hr. exact Hsl.
         ++ rewrite nth_error_app1 by lia. apply Hc. lia.
    * unfold frok, rok in *; cbn [rp mem set_rear rfront rmax] in *.
      destruct r; auto.
      -- destruct HR as (n & Hn & E & Np). exists n. split; [lia|]. split; [exact E|]. intros _. destruct p; discriminate.
      -- destruct HR as (A & B). split; auto. destruct p; [congruence|discriminate].
      -- destruct HR as (A & f1 & t1 & -> & B). split; auto. exists f1, (t1 ++ [g]); auto.
      -- destruct HR as (t1 & ->). eexists; reflexivity.
      -- destruct HR as ((t1 & ->) & n & Hn & E). split; [eexists; reflexivity|].
         exists n. split; [|exact E]. exact Hn.
      -- destruct HR as (t1 & ->). eexists; reflexivity.
    * cbn. rewrite HP, app_assoc. reflexivity.
  + destruct HW as (-> & Hfl). inversion Hs; subst s'; clear Hs. cbn [mem] in Hfl.
    assert (Hp2 : 2 <= length p) by lia.
    assert (Hk : removelast k = go ++ removelast p).
    { rewrite HP. apply removelast_app. destruct p; [cbn in Hp2; lia|discriminate]. }
    split; [exact M3|]. split.
    { cbn. rewrite HL, removelast_length, HP, app_length. lia. }
    exists (removelast p). split; [|split; [exact I|split; [|exact Hk]]].
    * unfold mem_ok; cbn [setwp setmem mem set_rear set_lost rmax rfront rrear rslots].
      rewrite removelast_length.
      split; [exact H1|]. split; [exact Hf|].
      split; [|split; [exact Hs0|split; [lia|split; [|exact HK]]]].
      -- rewrite Hr, Nat.add_mod_idemp_l by lia.
         replace (rfront q + length p + (rmax q - 1)) with (rfront q + (length p - 1) + 1 * rmax q) by lia.
         apply Nat.mod_add. lia.
      -- intros m Hm. change (pos (set_lost (set_rear q ((rrear q + (rmax q - 1)) mod rmax q)) (rlost q + 1)) m) with (pos q m).
         rewrite Hc by lia. symmetry. apply nth_removelast. lia.
    * assert (Hne : removelast p <> []). { intros E. pose proof (removelast_length p) as L. rewrite E in L. cbn in L. lia. }
      assert (Hh : forall f0 t0, p = f0 :: t0 -> removelast p = f0 :: removelast t0).
      { intros f0 t0 ->. destruct t0; [cbn in Hp2; lia|reflexivity]. }
      unfold frok, rok in *; cbn [rp mem set_rear set_lost rfront rmax setwp setmem] in *.
      destruct r; auto.
      -- destruct HR as (n & Hn & E & Np). exists n. auto.
      -- destruct HR as (A & B). auto.
      -- destruct HR as (A & f1 & t1 & Ep & B). split; auto. exists f1, (removelast t1). auto.
      -- destruct HR as (t1 & Ep). eexists. apply Hh, Ep.
      -- destruct HR as ((t1 & Ep) & n & Hn & E). split; [eexists; apply Hh, Ep|]. exists n. auto.
      -- destruct HR as (t1 & Ep). eexists. apply Hh, Ep.
Qed.

Lemma freader s s' k : FInv s k -> match rp s, wp s with RRmSt _, WFlush _ => False | _, _ => True end ->
  rstep s = Some s' -> FInv s' k.
Proof.
  intros (M3 & HL & p & HM & HW & HR & HP) Cm Hs.
  assert (HM0 := HM).
  destruct HM as (H1 & Hf & Hr & Hs0 & Hl & Hc & HK).
  destruct s as [q w r pu go]; cbn [mem wp rp pub got] in *.
  unfold rstep in Hs; cbn [mem wp rp pub got setrp] in Hs.
  unfold frok, rok in HR; cbn [rp mem] in HR.
  destruct r as [|r0|i|i acc|f|f r0|f].
  + inversion Hs; subst s'. split; [exact M3|]. split; [exact HL|]. exists p.
    split; [exact HM0|]. split; [exact HW|]. split; [|exact HP].
    cbn. exists (length p). split; [lia|]. split; [exact Hr|]. intros N ->. apply N. reflexivity.
  + destruct HR as (n & Hn & -> & Np). rewrite wrap_eq_zero in Hs by lia.
    destruct (Nat.eqb_spec n 0) as [->|Hn0]; inversion Hs; subst s'; (split; [exact M3|]); (split; [exact HL|]); exists p;
      (split; [exact HM0|]; split; [exact HW|]; split; [|exact HP]); cbn; auto.
  + destruct HR as [-> Hne]. inversion Hs; subst s'. split; [exact M3|]. split; [exact HL|]. exists p.
    split; [exact HM0|]; split; [exact HW|]; split; [|exact HP]. cbn. split; auto.
    destruct p as [|f0 t0]; [congruence|]. exists f0, t0; auto.
  + destruct HR as (-> & f0 & t0 & Ep & Hacc).
    assert (Hfr : nth_error (rslots q) (rfront q) = Some f0).
    { specialize (Hc 0). unfold pos in Hc. rewrite Nat.add_0_r, Nat.mod_small in Hc by lia.
      rewrite Hc; subst p; [reflexivity|cbn; lia]. }
    rewrite Hfr in Hs.
    destruct (nth_error f0 (length acc)) as [v|] eqn:En; inversion Hs; subst s'; (split; [exact M3|]); (split; [exact HL|]); exists p;
      (split; [exact HM0|]; split; [exact HW|]; split; [|exact HP]); cbn.
    * split; auto. exists f0, t0. split; auto.
      rewrite app_length; cbn [length]. rewrite (firstn_S_nth _ _ _ En), Hacc. reflexivity.
    * apply nth_error_None in En.
      exists t0. rewrite firstn_all2 in Hacc by lia. subst acc. exact Ep.
  + inversion Hs; subst s'. split; [exact M3|]. split; [exact HL|]. exists p.
    split; [exact HM0|]; split; [exact HW|]; split; [|exact HP]. cbn. split; auto.
    exists (length p). split; [lia|exact Hr].
  + destruct HR as ((t0 & Ep) & n & Hn & ->). rewrite wrap_eq_zero in Hs by lia.
    destruct (Nat.eqb_spec n 0) as [->|Hn0]; inversion Hs; subst s'; (split; [exact M3|]); (split; [exact HL|]); exists p;
      (split; [exact HM0|]; split; [exact HW|]; split; [|exact HP]); cbn; auto.
    exists t0; exact Ep.
  + destruct HR as (t0 & Ep). inversion Hs; subst s'; clear Hs. split; [exact M3|]. split; [exact HL|]. exists t0.
    subst p; cbn [length] in *.
    split; [|split; [|split; [exact I|]]].
    * unfold mem_ok; cbn [mem set_front rmax rfront rrear rslots].
      split; [exact H1|]. split; [apply Nat.mod_upper_bound; lia|].
      split; [|split; [exact Hs0|split; [lia|split; [|exact HK]]]].
      -- rewrite Nat.add_mod_idemp_l by lia. rewrite Hr. f_equal; lia.
      -- intros m Hk. unfold pos; cbn [set_front rmax rfront].
         rewrite Nat.add_mod_idemp_l by lia.
         replace (rfront q + 1 + m) with (rfront q + S m) by lia.
         fold (pos q (S m)). rewrite (Hc (S m)) by lia. reflexivity.
    * unfold fwok, wok, room in *; cbn [wp mem set_front rmax rrear rslots length] in *.
      destruct w; auto; try contradiction; intuition lia.
    * cbn. rewrite HP. rewrite <- app_assoc. reflexivity.
Qed.

Lemma fstep s e s' k : FInv s k -> match e, rp s, wp s with R, RRmSt _, WFlush _ => False | _, _, _ => True end ->
  sstep K s e = Some s' -> FInv s' (kept1 s e k).
Proof.
  intros HI Cm Hs. destruct e as [f| | | |]; cbn [sstep kept1] in *.
  - exact (fwriter s f false s' k HI Hs).
  - exact (fwriter s [] true s' k HI Hs).
  - destruct HI as (M3 & HL & p & HM & HW & HR & HP). destruct s as [q w r pu go]; cbn [wp] in Hs.
    destruct w; inversion Hs; subst s'; (split; [exact M3|]; split; [exact HL|]; exists p; split; [exact HM|]; split; [exact I|]; split; [exact HR|exact HP]).
  - apply (freader s s' k HI); [|exact Hs]. destruct (rp s); auto.
  - destruct HI as (M3 & HL & p & HM & HW & HR & HP). destruct s as [q w r pu go]; cbn [rp] in Hs.
    destruct r; inversion Hs; subst s'; (split; [exact M3|]; split; [exact HL|]; exists p; split; [exact HM|]; split; [exact HW|]; split; [exact I|exact HP]).
Qed.
Lemma frun es : forall s k s', FInv s k -> calm s es -> srun K s es = Some s' -> FInv s' (kept s k es).
Proof.
  induction es as [|e t IH]; intros s k s' HI C Hr; cbn [srun kept calm] in *; [inversion Hr; subst; exact HI|].
  destruct C as [C1 C2]. destruct (sstep K s e) as [s1|] eqn:E; [|discriminate].
  apply (IH s1); auto. exact (fstep s e s1 k HI C1 E).
Qed.
Lemma finit n w ids (b : frame) : 3 <= n -> length b = K -> FInv (sinit n w ids b) [].
Proof.
  intros Hn Hb. destruct (init_inv K n w ids b ltac:(lia) Hb) as (p & HM & _ & _ & HP).
  split; [|split; [reflexivity|]].
  - unfold sinit, newRing; cbn [mem rmax]. unfold MAX_FRAMES. destruct (Nat.ltb_spec 250 n); lia.
  - exists []. cbn [sinit pub got app] in HP. destruct p; [|discriminate]. split; [exact HM|]. split; [exact I|]. split; [exact I|reflexivity].
Qed.
Lemma fmax es : forall (s s' : st V), srun K s es = Some s' -> rmax (mem s') = rmax (mem s).
Proof.
  induction es as [|e t IH]; intros s0 s H; cbn in H; [congruence|].
  destruct (sstep K s0 e) as [s1|] eqn:E; [|discriminate].
  rewrite (IH _ _ H). clear - E. destruct s0 as [q w r pu go].
  destruct e; cbn in E; try (unfold wstep in E; cbn in E; destruct w; cbn in E;
    repeat match type of E with context [match ?x with _ => _ end] => destruct x end; inversion E; reflexivity).
  - unfold rstep in E; cbn in E. destruct r; cbn in E;
      repeat match type of E with context [match ?x with _ => _ end] => destruct x end; inversion E; reflexivity.
Qed.

Lemma force_main n w ids (b : frame) es s : 3 <= n -> length b = K -> calm (sinit n w ids b) es ->
  srun K (sinit n w ids b) es = Some s ->
  let k := kept (sinit n w ids b) [] es in
  (exists rest, k = got s ++ rest /\ length rest < Nat.min n 250) /\
  length (pub s) = length k + rlost (mem s) /\
  (forall f, rp s = RRead f -> nth_error k (length (got s)) = Some f).
Proof.
  intros Hn Hb C Hr k. destruct (frun es _ [] s (finit n w ids b Hn Hb) C Hr) as (M3 & HL & p & HM & HW & HR & HP). fold k in HL, HP.
  split; [|split; [exact HL|]].
  - exists p. split; [exact HP|]. destruct HM as (_ & _ & _ & _ & Hl & _). rewrite (fmax _ _ _ Hr) in Hl.
    unfold sinit, newRing in Hl; cbn [mem rmax] in Hl. unfold MAX_FRAMES in Hl. destruct (Nat.ltb_spec 250 n); lia.
  - intros f E. unfold frok, rok in HR. rewrite E in HR. destruct HR as (t & ->). rewrite HP, nth_error_app2, Nat.sub_diag by lia. reflexivity.
Qed.
End Force.
