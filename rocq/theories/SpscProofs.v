From Verif Require Import Base RingIface RingModel RingSpec RingProofs SpscModel.

Section Proofs.
Context {V : Type}.
Variable K : nat.
Notation frame := (list V).

(** The shared memory described by the list of frames between front and rear. *)
Definition mem_ok (q : ring frame) (p : list frame) : Prop :=
  1 <= rmax q /\ rfront q < rmax q /\
  rrear q = (rfront q + length p) mod rmax q /\
  length (rslots q) = rmax q /\ length p < rmax q /\
  (forall k, k < length p -> nth_error (rslots q) (pos q k) = nth_error p k) /\
  (forall i x, nth_error (rslots q) i = Some x -> length x = K).

Definition room (s : st V) (p : list frame) := length p + 1 < rmax (mem s).

Definition wok (s : st V) (p : list frame) : Prop :=
  match wp s with
  | WIdle => True
  | WChk r => r = rrear (mem s)
  | WHave i => i = rrear (mem s) /\ room s p
  | WWriting i f k => i = rrear (mem s) /\ room s p /\ length f = K /\ k <= K /\
      exists old, nth_error (rslots (mem s)) i = Some old /\ firstn k old = firstn k f
  | WDone f => room s p /\ length f = K /\ nth_error (rslots (mem s)) (rrear (mem s)) = Some f
  | WAddChk f r => r = rrear (mem s) /\ room s p /\ length f = K /\
      nth_error (rslots (mem s)) (rrear (mem s)) = Some f
  | WAddSt f r => r = rrear (mem s) /\ room s p /\ length f = K /\
      nth_error (rslots (mem s)) (rrear (mem s)) = Some f
  | WFlush r => False
  end.

(** What the reader loaded from [rear] may be stale: the queue only got longer. *)
Definition rok (s : st V) (p : list frame) : Prop :=
  match rp s with
  | RIdle => True
  | RChk r => exists n, n <= length p /\ r = (rfront (mem s) + n) mod rmax (mem s)
  | RHave i => i = rfront (mem s) /\ p <> []
  | RReading i acc => i = rfront (mem s) /\ exists f t, p = f :: t /\ firstn (length acc) f = acc
  | RRead f => exists t, p = f :: t
  | RRmChk f r => (exists t, p = f :: t) /\
      exists n, n <= length p /\ r = (rfront (mem s) + n) mod rmax (mem s)
  | RRmSt f => exists t, p = f :: t
  end.

Definition Inv (s : st V) : Prop :=
  exists p, mem_ok (mem s) p /\ wok s p /\ rok s p /\ pub s = got s ++ p.

Lemma wrap_eq_zero f n m : f < m -> n < m -> ((f + n) mod m =? f) = (n =? 0).
Proof.
  intros Hf Hn. rewrite mod_wrap by lia.
  destruct (Nat.ltb_spec (f + n) m);
  match goal with |- (?a =? ?b) = _ => destruct (Nat.eqb_spec a b) end;
  destruct (Nat.eqb_spec n 0); try reflexivity; lia.
Qed.

Lemma pos_neq_rear q (p : list frame) k : mem_ok q p -> k < length p -> pos q k <> rrear q.
Proof.
  intros (H1 & Hf & Hr & _ & Hl & _ & _) Hk. rewrite Hr. unfold pos.
  rewrite !mod_wrap by lia.
  destruct (Nat.ltb_spec (rfront q + k) (rmax q));
  destruct (Nat.ltb_spec (rfront q + length p) (rmax q)); lia.
Qed.

Lemma rear_in q (p : list frame) : mem_ok q p -> rrear q < rmax q.
Proof. intros (H1 & _ & -> & _). apply Nat.mod_upper_bound. lia. Qed.

Lemma rear_full q (p : list frame) : mem_ok q p ->
  ((rrear q + 1) mod rmax q =? rfront q) = (length p + 1 =? rmax q).
Proof.
  intros (H1 & Hf & Hr & _ & Hl & _).
  rewrite Hr, Nat.add_mod_idemp_l by lia.
  replace (rfront q + length p + 1) with (rfront q + (length p + 1)) by lia.
  rewrite mod_wrap by lia.
  destruct (Nat.ltb_spec (rfront q + (length p + 1)) (rmax q));
  match goal with |- (?a =? ?b) = _ => destruct (Nat.eqb_spec a b) end;
  destruct (Nat.eqb_spec (length p + 1) (rmax q)); try reflexivity; lia.
Qed.

Lemma upd_len_ok (l : list frame) i (x : frame) :
  (forall j y, nth_error l j = Some y -> length y = K) -> length x = K ->
  forall j y, nth_error (upd l i x) j = Some y -> length y = K.
Proof.
  intros H Hx j y Hj. destruct (Nat.eq_dec i j) as [->|Hne].
  - destruct (Nat.lt_ge_cases j (length l)) as [Hl|Hl].
    + rewrite nth_error_upd_eq in Hj by lia. inversion Hj; subst; auto.
    + assert (HN : nth_error (upd l j x) j = None)
        by (apply nth_error_None; rewrite upd_length; lia). congruence.
  - rewrite nth_error_upd_neq in Hj by exact Hne. eauto.
Qed.

Lemma firstn_upd {A} (l : list A) k x : k < length l ->
  firstn (k + 1) (upd l k x) = firstn k l ++ [x].
Proof.
  revert k; induction l as [|h t IH]; intros k Hk; cbn in Hk; [lia|].
  destruct k as [|k]; cbn; [reflexivity|]. rewrite IH by lia. reflexivity.
Qed.

Lemma firstn_S_nth {A} (l : list A) k x : nth_error l k = Some x ->
  firstn (k + 1) l = firstn k l ++ [x].
Proof.
  revert k; induction l as [|h t IH]; intros k Hk; [destruct k; discriminate|].
  destruct k as [|k]; cbn in *; [congruence|]. rewrite (IH _ Hk). reflexivity.
Qed.

Lemma step_inv s e s' : Inv s -> e <> WForce -> sstep K s e = Some s' -> Inv s'.
Proof.
  intros (p & HM & HW & HR & HP) He Hs.
  pose proof (rear_in _ _ HM) as Hrin.
  pose proof (rear_full _ _ HM) as Hfull.
  assert (HM0 := HM).
  destruct HM as (H1 & Hf & Hr & Hs0 & Hl & Hc & HK).
  destruct s as [q w r pu go]; cbn [mem wp rp pub got] in *.
  destruct e as [f| | | |]; cbn [sstep] in Hs; [| congruence | | |].
  - (* W *)
    unfold wstep in Hs; cbn [mem wp rp pub got setwp setmem] in Hs.
    unfold wok in HW; cbn [wp mem] in HW.
    destruct w as [|r0|i|i g k|g|g r0|g r0|r0].
    + inversion Hs; subst s'. exists p. repeat split; auto.
    + subst r0. rewrite Hfull in Hs.
      destruct (Nat.eqb_spec (length p + 1) (rmax q)); inversion Hs; subst s'; exists p.
      * repeat split; auto.
      * split; [exact HM0|]. split; [|split; [exact HR|exact HP]].
        cbn. unfold room; cbn. split; [reflexivity|lia].
    + destruct (Nat.eqb_spec (length f) K) as [Ef|]; [|discriminate].
      inversion Hs; subst s'; exists p.
      split; [exact HM0|]. split; [|split; [exact HR|exact HP]].
      destruct HW as [-> Hroom]. cbn. split; [reflexivity|]. split; [exact Hroom|].
      split; [exact Ef|]. split; [lia|].
      destruct (nth_error (rslots q) (rrear q)) as [old|] eqn:En.
      * exists old; auto.
      * apply nth_error_None in En. lia.
    + destruct HW as (-> & Hroom & Hg & Hk & old & Hold & Hfn).
      pose proof (HK _ _ Hold) as Hlold.
      destruct (nth_error g k) as [v|] eqn:Eg.
      * rewrite Hold in Hs. inversion Hs; subst s'; clear Hs.
        assert (Hkk : k < K).
        { rewrite <- Hg. apply nth_error_Some. congruence. }
        exists p. split; [|split; [|split; [|exact HP]]].
        -- unfold mem_ok; cbn [setwp setmem mem set_slots rmax rfront rrear rslots].
           split; [exact H1|]. split; [exact Hf|]. split; [exact Hr|].
           split; [rewrite upd_length; exact Hs0|]. split; [exact Hl|]. split.
           ++ intros j Hj. unfold pos; cbn [set_slots rmax rfront].
              rewrite nth_error_upd_neq; [apply Hc; exact Hj|].
              apply not_eq_sym, (pos_neq_rear q p j HM0 Hj).
           ++ apply upd_len_ok; auto. rewrite upd_length; exact Hlold.
        -- cbn. split; [reflexivity|]. split; [exact Hroom|]. split; [exact Hg|].
           split; [lia|]. exists (upd old k v). split.
           ++ apply nth_error_upd_eq. lia.
           ++ rewrite firstn_upd by lia. rewrite (firstn_S_nth _ _ _ Eg), Hfn. reflexivity.
        -- exact HR.
      * inversion Hs; subst s'; clear Hs. exists p.
        split; [exact HM0|]. split; [|split; [exact HR|exact HP]].
        apply nth_error_None in Eg.
        cbn. split; [exact Hroom|]. split; [exact Hg|].
        rewrite Hold. f_equal.
        rewrite !firstn_all2 in Hfn by lia. exact Hfn.
    + inversion Hs; subst s'; exists p.
      split; [exact HM0|]. split; [|split; [exact HR|exact HP]].
      cbn. destruct HW as (A & B & C). auto.
    + destruct HW as (-> & Hroom & Hg & Hsl). rewrite Hfull in Hs.
      destruct (Nat.eqb_spec (length p + 1) (rmax q)) as [Ee|Ee].
      * unfold room in Hroom; cbn in Hroom; lia.
      * inversion Hs; subst s'; exists p.
        split; [exact HM0|]. split; [|split; [exact HR|exact HP]]. cbn; auto.
    + destruct HW as (-> & Hroom & Hg & Hsl).
      inversion Hs; subst s'; clear Hs. exists (p ++ [g]).
      unfold room in Hroom; cbn [mem] in Hroom.
      split; [|split; [exact I|split]].
      * unfold mem_ok; cbn [mem set_rear rmax rfront rrear rslots].
        rewrite app_length; cbn [length].
        split; [exact H1|]. split; [exact Hf|].
        split; [|split; [exact Hs0|split; [lia|split; [|exact HK]]]].
        -- rewrite Hr, Nat.add_mod_idemp_l by lia. f_equal; lia.
        -- intros k Hk. unfold pos; cbn [set_rear rmax rfront].
           destruct (Nat.eq_dec k (length p)) as [->|Hne].
           ++ rewrite nth_error_app2, Nat.sub_diag by lia. cbn [nth_error].
              rewrite <- Hr. exact Hsl.
           ++ rewrite nth_error_app1 by lia. apply Hc. lia.
      * unfold rok in *; cbn [rp mem set_rear rfront rmax] in *.
        destruct r; auto.
        -- destruct HR as (n & Hn & E). exists n. rewrite app_length. split; [lia|exact E].
        -- destruct HR as (A & B). split; auto. destruct p; [congruence|discriminate].
        -- destruct HR as (A & f1 & t1 & -> & B). split; auto. exists f1, (t1 ++ [g]); auto.
        -- destruct HR as (t1 & ->). eexists; reflexivity.
        -- destruct HR as ((t1 & ->) & n & Hn & E). split; [eexists; reflexivity|].
           exists n. split; [|exact E]. rewrite app_length. cbn [length] in *; lia.
        -- destruct HR as (t1 & ->). eexists; reflexivity.
      * cbn. rewrite HP, app_assoc. reflexivity.
    + contradiction.
  - (* WSkip *)
    cbn [wp] in Hs. destruct w; inversion Hs; subst s'; exists p;
      (split; [exact HM0|]; split; [exact I|]; split; [exact HR|exact HP]).
  - (* R *)
    unfold rstep in Hs; cbn [mem wp rp pub got setrp] in Hs.
    unfold rok in HR; cbn [rp mem] in HR.
    destruct r as [|r0|i|i acc|f|f r0|f].
    + inversion Hs; subst s'; exists p.
      split; [exact HM0|]. split; [exact HW|]. split; [|exact HP].
      cbn. exists (length p). split; [lia|exact Hr].
    + destruct HR as (n & Hn & ->). rewrite wrap_eq_zero in Hs by lia.
      destruct (Nat.eqb_spec n 0) as [->|Hn0]; inversion Hs; subst s'; exists p;
        (split; [exact HM0|]; split; [exact HW|]; split; [|exact HP]); cbn; auto.
      split; auto. destruct p; [cbn in Hn; lia|discriminate].
    + destruct HR as [-> Hne]. inversion Hs; subst s'; exists p.
      split; [exact HM0|]; split; [exact HW|]; split; [|exact HP]. cbn. split; auto.
      destruct p as [|f0 t0]; [congruence|]. exists f0, t0; auto.
    + destruct HR as (-> & f0 & t0 & Ep & Hacc).
      assert (Hfr : nth_error (rslots q) (rfront q) = Some f0).
      { specialize (Hc 0). unfold pos in Hc. rewrite Nat.add_0_r, Nat.mod_small in Hc by lia.
        rewrite Hc; subst p; [reflexivity|cbn; lia]. }
      rewrite Hfr in Hs.
      destruct (nth_error f0 (length acc)) as [v|] eqn:En; inversion Hs; subst s'; exists p;
        (split; [exact HM0|]; split; [exact HW|]; split; [|exact HP]); cbn.
      * split; auto. exists f0, t0. split; auto.
        rewrite app_length; cbn [length]. rewrite (firstn_S_nth _ _ _ En), Hacc. reflexivity.
      * apply nth_error_None in En.
        exists t0. rewrite firstn_all2 in Hacc by lia. subst acc. exact Ep.
    + inversion Hs; subst s'; exists p.
      split; [exact HM0|]; split; [exact HW|]; split; [|exact HP]. cbn. split; auto.
      exists (length p). split; [lia|exact Hr].
    + destruct HR as ((t0 & Ep) & n & Hn & ->). rewrite wrap_eq_zero in Hs by lia.
      destruct (Nat.eqb_spec n 0) as [->|Hn0]; inversion Hs; subst s'; exists p;
        (split; [exact HM0|]; split; [exact HW|]; split; [|exact HP]); cbn; auto.
      exists t0; exact Ep.
    + destruct HR as (t0 & Ep). inversion Hs; subst s'; clear Hs. exists t0.
      subst p; cbn [length] in *.
      split; [|split; [|split; [exact I|]]].
      * unfold mem_ok; cbn [mem set_front rmax rfront rrear rslots].
        split; [exact H1|]. split; [apply Nat.mod_upper_bound; lia|].
        split; [|split; [exact Hs0|split; [lia|split; [|exact HK]]]].
        -- rewrite Nat.add_mod_idemp_l by lia. rewrite Hr. f_equal; lia.
        -- intros k Hk. unfold pos; cbn [set_front rmax rfront].
           rewrite Nat.add_mod_idemp_l by lia.
           replace (rfront q + 1 + k) with (rfront q + S k) by lia.
           fold (pos q (S k)). rewrite (Hc (S k)) by lia. reflexivity.
      * unfold wok, room in *; cbn [wp mem set_front rmax rrear rslots length] in *.
        destruct w; auto; intuition lia.
      * cbn. rewrite HP. rewrite <- app_assoc. reflexivity.
  - (* RSkip *)
    cbn [rp] in Hs. destruct r; inversion Hs; subst s'; exists p;
      (split; [exact HM0|]; split; [exact HW|]; split; [exact I|exact HP]).
Qed.

Lemma run_inv es : forall s s', Inv s -> ~ In WForce es -> srun K s es = Some s' -> Inv s'.
Proof.
  induction es as [|e t IH]; intros s s' HI Hn Hr; cbn [srun] in Hr.
  - inversion Hr; subst; exact HI.
  - destruct (sstep K s e) as [s1|] eqn:E; [|discriminate].
    apply (IH s1); auto.
    + eapply step_inv; eauto. intros ->. apply Hn. left; reflexivity.
    + intros H; apply Hn. right; exact H.
Qed.

Lemma init_inv n w ids (b : frame) : 1 <= n -> length b = K -> Inv (sinit n w ids b).
Proof.
  intros Hn Hb. exists []. unfold sinit, newRing. cbn [mem].
  assert (Hm : 1 <= (if MAX_FRAMES <? n then MAX_FRAMES else n)).
  { destruct (Nat.ltb_spec MAX_FRAMES n); unfold MAX_FRAMES in *; lia. }
  remember (if MAX_FRAMES <? n then MAX_FRAMES else n) as m eqn:Em; clear Em.
  split; [|split; [exact I|split; [exact I|reflexivity]]].
  unfold mem_ok; cbn [rmax rfront rrear rslots length].
  split; [exact Hm|]. split; [lia|]. split; [rewrite Nat.mod_small by lia; reflexivity|].
  split; [apply repeat_length|]. split; [lia|]. split.
  - intros k Hk. lia.
  - intros i x Hx. assert (Hi := nth_error_In _ _ Hx). apply repeat_spec in Hi. congruence.
Qed.

(** No step of a scheduled thread is ever blocked by an invalid slot: progress. *)
Lemma step_progress s e : Inv s ->
  match e with
  | W f => length f = K
  | WForce => False
  | WSkip => match wp s with WHave _ | WWriting _ _ _ | WDone _ => True | _ => False end
  | R => True
  | RSkip => match rp s with RHave _ | RReading _ _ | RRead _ => True | _ => False end
  end -> sstep K s e <> None.
Proof.
  intros (p & HM & HW & HR & HP) He.
  destruct HM as (H1 & Hf & Hr & Hs0 & Hl & Hc & HK).
  destruct s as [q w r pu go]; cbn [mem wp rp pub got] in *.
  destruct e as [f| | | |]; cbn [sstep]; try contradiction.
  - unfold wstep; cbn [mem wp]. destruct w as [|r0|i|i g k|g|g r0|g r0|r0]; try discriminate.
    + destruct (_ =? _); discriminate.
    + rewrite He, Nat.eqb_refl. discriminate.
    + cbn in HW. destruct HW as (_ & _ & _ & _ & old & Hold & _). cbn in Hold.
      destruct (nth_error g k); [rewrite Hold|]; discriminate.
    + destruct (_ =? _); discriminate.
  - cbn [wp]. destruct w; cbn in He |- *; try contradiction; discriminate.
  - unfold rstep; cbn [mem rp]. destruct r as [|r0|i|i acc|f|f r0|f]; try discriminate.
    + destruct (_ =? _); discriminate.
    + cbn in HR. destruct HR as (-> & _).
      destruct (nth_error (rslots q) (rfront q)) as [g0|] eqn:En.
      * destruct (nth_error _ (length acc)); discriminate.
      * apply nth_error_None in En. lia.
    + destruct (_ =? _); discriminate.
  - cbn [rp]. destruct r; cbn in He |- *; try contradiction; discriminate.
Qed.

Lemma spsc_main n w ids (b : frame) es s :
  1 <= n -> length b = K -> ~ In WForce es ->
  srun K (sinit n w ids b) es = Some s ->
  exists rest, pub s = got s ++ rest /\ length rest < Nat.min n 250.
Proof.
  intros Hn Hb Hf Hr.
  destruct (run_inv es _ _ (init_inv n w ids b Hn Hb) Hf Hr) as (p & HM & _ & _ & HP).
  exists p. split; [exact HP|].
  assert (Hm : rmax (mem s) = Nat.min n 250).
  { clear - Hr. assert (Hg : forall es (s0 : st V) s, srun K s0 es = Some s -> rmax (mem s) = rmax (mem s0)).
    { clear. induction es as [|e t IH]; intros s0 s H; cbn in H; [congruence|].
      destruct (sstep K s0 e) as [s1|] eqn:E; [|discriminate].
      rewrite (IH _ _ H). clear - E. destruct s0 as [q w r pu go].
      destruct e; cbn in E.
      - unfold wstep in E; cbn in E. destruct w; cbn in E;
        repeat match type of E with context [match ?x with _ => _ end] => destruct x end;
        inversion E; reflexivity.
      - unfold wstep in E; cbn in E. destruct w; cbn in E;
        repeat match type of E with context [match ?x with _ => _ end] => destruct x end;
        inversion E; reflexivity.
      - destruct w; inversion E; reflexivity.
      - unfold rstep in E; cbn in E. destruct r; cbn in E;
        repeat match type of E with context [match ?x with _ => _ end] => destruct x end;
        inversion E; reflexivity.
      - destruct r; inversion E; reflexivity. }
    rewrite (Hg _ _ _ Hr). unfold sinit, newRing; cbn [mem rmax].
    unfold MAX_FRAMES. destruct (Nat.ltb_spec 250 n); lia. }
  destruct HM as (_ & _ & _ & _ & Hl & _). lia.
Qed.

(** Frames are delivered whole: every word list handed to the reader is the one published. *)
Lemma spsc_progress n w ids (b : frame) es s e :
  1 <= n -> length b = K -> ~ In WForce es ->
  srun K (sinit n w ids b) es = Some s ->
  match e with
  | W f => length f = K
  | WForce => False
  | WSkip => match wp s with WHave _ | WWriting _ _ _ | WDone _ => True | _ => False end
  | R => True
  | RSkip => match rp s with RHave _ | RReading _ _ | RRead _ => True | _ => False end
  end -> sstep K s e <> None.
Proof.
  intros Hn Hb Hf Hr. apply step_progress.
  eapply run_inv; eauto. apply init_inv; auto.
Qed.

Lemma spsc_read_whole n w ids (b : frame) es s f :
  1 <= n -> length b = K -> ~ In WForce es ->
  srun K (sinit n w ids b) es = Some s ->
  rp s = RRead f -> nth_error (pub s) (length (got s)) = Some f.
Proof.
  intros Hn Hb Hf Hr Hp.
  destruct (run_inv es _ _ (init_inv n w ids b Hn Hb) Hf Hr) as (p & HM & _ & HR & HP).
  unfold rok in HR. rewrite Hp in HR. destruct HR as (t & ->).
  rewrite HP, nth_error_app2, Nat.sub_diag by lia. reflexivity.
Qed.

End Proofs.
