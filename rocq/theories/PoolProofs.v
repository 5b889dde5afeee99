From Verif Require Import Base ZMap PoolModel PoolSpec.

Section Proofs.
Variable idof : nat -> Z.

Definition is_run (o : nat) (s : wstate) : nat :=
  match s with Running x => if x =? o then 1 else 0 | _ => 0 end.
Fixpoint nrun (o : nat) (ws : list wstate) : nat :=
  match ws with [] => 0 | s :: t => is_run o s + nrun o t end.
Definition cnt (o : nat) (l : list nat) : nat := count_occ Nat.eq_dec l o.

Lemma nrun_upd o ws w s x : nth_error ws w = Some s ->
  nrun o (upd ws w x) + is_run o s = nrun o ws + is_run o x.
Proof.
  revert w; induction ws as [|h t IH]; intros [|w] H; cbn [nth_error upd nrun] in *; try discriminate.
  - inversion H; subst. lia.
  - specialize (IH w H). lia.
Qed.

Lemma nrun_pos o ws w : nth_error ws w = Some (Running o) -> 1 <= nrun o ws.
Proof.
  revert w; induction ws as [|h t IH]; intros [|w] H; cbn in *; try discriminate.
  - inversion H; subst. cbn. rewrite Nat.eqb_refl. lia.
  - specialize (IH w H). cbn in *. lia.
Qed.

Lemma nrun_two o ws : forall w1 w2, nth_error ws w1 = Some (Running o) -> nth_error ws w2 = Some (Running o) ->
  nrun o ws <= 1 -> w1 = w2.
Proof.
  induction ws as [|h t IH]; intros [|w1] [|w2] H1 H2 Hn; cbn in *; try discriminate; try reflexivity.
  - inversion H1; subst. pose proof (nrun_pos _ _ _ H2). cbn in Hn. rewrite Nat.eqb_refl in Hn. lia.
  - inversion H2; subst. pose proof (nrun_pos _ _ _ H1). cbn in Hn. rewrite Nat.eqb_refl in Hn. lia.
  - f_equal. apply IH; try assumption. lia.
Qed.

Lemma mem_iff o l : mem o l = true <-> In o l.
Proof.
  unfold mem. rewrite existsb_exists. split.
  - intros (x & Hx & E). apply Nat.eqb_eq in E. subst. exact Hx.
  - intros H. exists o. rewrite Nat.eqb_refl. auto.
Qed.
Lemma mem_false o l : mem o l = false <-> ~ In o l.
Proof. rewrite <- mem_iff. destruct (mem o l); split; congruence. Qed.

Lemma cnt_del o x l : In x l -> cnt o (del x l) + (if x =? o then 1 else 0) = cnt o l.
Proof.
  unfold cnt. induction l as [|h t IH]; intros H; cbn in *; [contradiction|].
  destruct (Nat.eqb_spec x h) as [E|E].
  - subst. destruct (Nat.eq_dec h o); destruct (Nat.eqb_spec h o); try congruence; lia.
  - destruct H as [H|H]; [congruence|]. specialize (IH H). cbn.
    destruct (Nat.eq_dec h o); lia.
Qed.

Record inv (p : pool) : Prop := {
  i_cnt : forall o, cnt o (flag p) = nrun o (workers p);
  i_one : forall o, nrun o (workers p) <= 1
}.

Lemma inv_new n : inv (newPool n).
Proof.
  assert (H : forall o, nrun o (repeat Idle n) = 0) by (intros o; induction n; cbn; auto).
  split; intros o; cbn; rewrite H; [reflexivity|lia].
Qed.

Lemma scan_job p rdy q o : scan p rdy q = Job o ->
  In o q /\ mem o (flag p) = false /\ mem o (freed p) = false /\
  (forall f t, q = f :: t -> f = o \/ mem f (flag p) = true).
Proof.
  induction q as [|x t IH]; cbn; [discriminate|]. intros H.
  destruct (mem x (freed p)) eqn:Ef; [discriminate|]. destruct (mem x (flag p)) eqn:Eg.
  - destruct (IH H) as (H1 & H2 & H3 & _). split; [auto|]. split; [exact H2|]. split; [exact H3|].
    intros f u E; inversion E; subst. auto.
  - destruct (rdy x); [|discriminate]. inversion H; subst. split; [auto|]. split; [exact Eg|]. split; [exact Ef|].
    intros f u E; inversion E; subst. auto.
Qed.

Lemma inv_step p e p' s : inv p -> pstep idof p e = Next p' s -> inv p'.
Proof.
  intros [Hc H1] H. destruct e as [o|i|o|o|w rdy|w en|w pend]; cbn [pstep] in H.
  - destruct (locked p); [discriminate|]. destruct (mem o (freed p)); [discriminate|].
    destruct (idof o <? 0)%Z; [inversion H; subst; split; assumption|].
    destruct (mfind (idof o) (regs p)); inversion H; subst; split; assumption.
  - destruct (locked p); [discriminate|]. destruct (mfind i (regs p)); inversion H; subst; split; assumption.
  - destruct (negb (mem o (leaving p))); [discriminate|]. destruct (mem o (freed p)); [discriminate|].
    destruct (mem o (flag p)); [discriminate|]. inversion H; subst; split; assumption.
  - destruct (mem o (removed p)); [|discriminate]. inversion H; subst; split; assumption.
  - destruct (locked p); [discriminate|]. destruct (nth_error (workers p) w) as [[|x|x en]|] eqn:Ew; try discriminate.
    destruct (scan p rdy (queue p)) as [o| |] eqn:Es; try discriminate; [|inversion H; subst; split; assumption].
    inversion H; subst; clear H. destruct (scan_job _ _ _ _ Es) as (_ & Hf & _).
    apply mem_false in Hf.
    assert (H0 : nrun o (workers p) = 0).
    { rewrite <- Hc. apply (count_occ_not_In Nat.eq_dec). exact Hf. }
    assert (HN : forall x, nrun x (upd (workers p) w (Running o)) = nrun x (workers p) + (if o =? x then 1 else 0)).
    { intros x. pose proof (nrun_upd x _ _ _ (Running o) Ew) as HH. cbn in HH. lia. }
    split; intros x; cbn [flag workers]; rewrite HN.
    + unfold cnt. cbn. destruct (Nat.eq_dec o x) as [E|E]; destruct (Nat.eqb_spec o x); try congruence;
        specialize (Hc x); unfold cnt in Hc; lia.
    + destruct (Nat.eqb_spec o x) as [E|E]; [subst; lia|]. specialize (H1 x). lia.
  - destruct (locked p); [discriminate|]. destruct (nth_error (workers p) w) as [[|o|x en']|] eqn:Ew; try discriminate.
    destruct (mem o (freed p)); [discriminate|]. inversion H; subst; clear H.
    assert (Hin : In o (flag p)).
    { apply (count_occ_In Nat.eq_dec). fold (cnt o (flag p)). rewrite Hc. pose proof (nrun_pos _ _ _ Ew). lia. }
    assert (HN : forall x, nrun x (upd (workers p) w (Settling o en)) + (if o =? x then 1 else 0) = nrun x (workers p)).
    { intros x. pose proof (nrun_upd x _ _ _ (Settling o en) Ew) as HH. cbn in HH. lia. }
    split; intros x; cbn [flag workers].
    + pose proof (cnt_del x o _ Hin) as HD. specialize (HN x). specialize (Hc x). lia.
    + specialize (HN x). specialize (H1 x). lia.
  - destruct (nth_error (workers p) w) as [[|o|o en]|] eqn:Ew; try discriminate.
    destruct (mem o (freed p)); [discriminate|]. inversion H; subst; clear H.
    assert (HN : forall x, nrun x (upd (workers p) w Idle) = nrun x (workers p)).
    { intros x. pose proof (nrun_upd x _ _ _ Idle Ew) as HH. cbn in HH. lia. }
    split; intros x; cbn [flag workers]; rewrite HN; [apply Hc|apply H1].
Qed.

Lemma inv_run n p tr : prun idof (newPool n) p tr -> inv p.
Proof. induction 1; [apply inv_new|eapply inv_step; eassumption]. Qed.

Lemma nth_upd {A} (l : list A) w v s x : nth_error l w = Some s ->
  nth_error (upd l w x) v = if v =? w then Some x else nth_error l v.
Proof.
  intros H. destruct (Nat.eqb_spec v w) as [E|E].
  - subst. apply nth_error_upd_eq. apply nth_error_Some. congruence.
  - apply nth_error_upd_neq. congruence.
Qed.

(** What a worker executes, read off the history, is what its state says. *)
Lemma busy_snoc w tr e s : busy w (tr ++ [(e, s)]) =
  match e, s with
  | Look v _, Some o => if v =? w then Some o else busy w tr
  | Finish v _, _ => if v =? w then None else busy w tr
  | _, _ => busy w tr end.
Proof. unfold busy. rewrite fold_left_app. destruct e, s; reflexivity. Qed.

Lemma busy_state n p tr : prun idof (newPool n) p tr ->
  forall w o, busy w tr = Some o <-> nth_error (workers p) w = Some (Running o).
Proof.
  induction 1 as [|p tr e p' s HR IH H]; intros v o.
  - cbn. split; [discriminate|]. intros H. apply nth_error_In, repeat_spec in H. discriminate.
  - rewrite busy_snoc. destruct e as [x|i|x|x|w rdy|w en|w pend]; cbn [pstep] in H.
    + destruct (locked p); [discriminate|]. destruct (mem x (freed p)); [discriminate|].
      destruct (idof x <? 0)%Z; [inversion H; subst; apply IH|].
      destruct (mfind (idof x) (regs p)); inversion H; subst; apply IH.
    + destruct (locked p); [discriminate|]. destruct (mfind i (regs p)); inversion H; subst; apply IH.
    + destruct (negb (mem x (leaving p))); [discriminate|]. destruct (mem x (freed p)); [discriminate|].
      destruct (mem x (flag p)); [discriminate|]. inversion H; subst; apply IH.
    + destruct (mem x (removed p)); [|discriminate]. inversion H; subst; apply IH.
    + destruct (locked p); [discriminate|]. destruct (nth_error (workers p) w) as [[|x|x en]|] eqn:Ew; try discriminate.
      destruct (scan p rdy (queue p)) as [y| |] eqn:Es; try discriminate; [|inversion H; subst; apply IH].
      inversion H; subst; clear H. cbn [workers]. rewrite (nth_upd _ _ v _ (Running y) Ew).
      rewrite (Nat.eqb_sym v w). destruct (w =? v); [|apply IH]. split; intros E; inversion E; reflexivity.
    + destruct (locked p); [discriminate|]. destruct (nth_error (workers p) w) as [[|x|x en']|] eqn:Ew; try discriminate.
      destruct (mem x (freed p)); [discriminate|]. inversion H; subst; clear H. cbn [workers].
      rewrite (nth_upd _ _ v _ (Settling x en) Ew). rewrite (Nat.eqb_sym v w).
      destruct (w =? v); [|apply IH]. split; discriminate.
    + destruct (nth_error (workers p) w) as [[|x|x en]|] eqn:Ew; try discriminate.
      destruct (mem x (freed p)); [discriminate|]. inversion H; subst; clear H. cbn [workers].
      rewrite (nth_upd _ _ v _ Idle Ew). destruct (Nat.eqb_spec v w) as [E|E]; [|apply IH].
      subst v. rewrite IH, Ew. split; discriminate.
Qed.

Lemma exclusive n p tr : prun idof (newPool n) p tr ->
  forall w1 w2 o, busy w1 tr = Some o -> busy w2 tr = Some o -> w1 = w2.
Proof.
  intros HR w1 w2 o H1 H2. apply (busy_state n p tr HR) in H1, H2.
  eapply nrun_two; [exact H1|exact H2|]. apply (inv_run n p tr HR).
Qed.

(** ** Wake-ups *)
Lemma in_pushBack q o x : In x q -> In x (pushBack idof q o).
Proof. unfold pushBack. destruct (existsb _ q); [auto|]. intros H; apply in_or_app; auto. Qed.
Lemma in_pushAll m en : forall q x, In x q -> In x (pushAll idof m q en).
Proof.
  induction en as [|i t IH]; intros q x H; cbn; [exact H|]. apply IH. destruct (mfind i m); [apply in_pushBack|]; exact H.
Qed.

Lemma kept_unless_running p e p' s o : pstep idof p e = Next p' s -> In o (queue p) -> ~ In o (flag p) ->
  In o (queue p') \/ s = Some o.
Proof.
  intros H Hin Hf. destruct e as [x|i|x|x|w rdy|w en|w pend]; cbn [pstep] in H.
  - destruct (locked p); [discriminate|]. destruct (mem x (freed p)); [discriminate|].
    destruct (idof x <? 0)%Z; [inversion H; subst; auto|].
    destruct (mfind (idof x) (regs p)); inversion H; subst; left; [exact Hin|]. cbn. apply in_pushBack. exact Hin.
  - destruct (locked p); [discriminate|]. destruct (mfind i (regs p)); inversion H; subst; auto.
  - destruct (negb (mem x (leaving p))); [discriminate|]. destruct (mem x (freed p)); [discriminate|].
    destruct (mem x (flag p)); [discriminate|]. inversion H; subst; auto.
  - destruct (mem x (removed p)); [|discriminate]. inversion H; subst; auto.
  - destruct (locked p); [discriminate|]. destruct (nth_error (workers p) w) as [[|x|x en]|] eqn:Ew; try discriminate.
    destruct (scan p rdy (queue p)) as [y| |] eqn:Es; try discriminate; [|inversion H; subst; auto].
    inversion H; subst; clear H. destruct (scan_job _ _ _ _ Es) as (_ & _ & _ & Hh).
    cbn [queue pop]. destruct (queue p) as [|f t]; [contradiction|]. cbn.
    destruct Hin as [E|Hin]; [|auto]. subst f. destruct (Hh o t eq_refl) as [E|E]; [right; congruence|].
    apply mem_iff in E. contradiction.
  - destruct (locked p); [discriminate|]. destruct (nth_error (workers p) w) as [[|x|x en']|] eqn:Ew; try discriminate.
    destruct (mem x (freed p)); [discriminate|]. inversion H; subst; auto.
  - destruct (nth_error (workers p) w) as [[|x|x en]|] eqn:Ew; try discriminate.
    destruct (mem x (freed p)); [discriminate|]. inversion H; subst; left. cbn. apply in_pushAll. exact Hin.
Qed.

Lemma step_nworkers p e p' s : pstep idof p e = Next p' s -> length (workers p') = length (workers p).
Proof.
  intros H. destruct e as [x|i|x|x|w rdy|w en|w pend]; cbn [pstep] in H;
  repeat match type of H with
  | context [if ?b then _ else _] => destruct b
  | context [match ?x with _ => _ end] => destruct x
  end; try discriminate; inversion H; subst; cbn [workers]; rewrite ?upd_length; reflexivity.
Qed.

Lemma run_nworkers n p tr : prun idof (newPool n) p tr -> length (workers p) = n.
Proof. induction 1 as [|p tr e p' s HR IH H]; [apply repeat_length|]. rewrite (step_nworkers _ _ _ _ H). exact IH. Qed.

Lemma kept_not_look p e p' s o : pstep idof p e = Next p' s -> (forall w rdy, e <> Look w rdy) ->
  In o (queue p) -> In o (queue p').
Proof.
  intros H Hn Hin. destruct e as [x|i|x|x|w rdy|w en|w pend]; cbn [pstep] in H.
  - destruct (locked p); [discriminate|]. destruct (mem x (freed p)); [discriminate|].
    destruct (idof x <? 0)%Z; [inversion H; subst; auto|].
    destruct (mfind (idof x) (regs p)); inversion H; subst; [exact Hin|]. cbn. apply in_pushBack. exact Hin.
  - destruct (locked p); [discriminate|]. destruct (mfind i (regs p)); inversion H; subst; auto.
  - destruct (negb (mem x (leaving p))); [discriminate|]. destruct (mem x (freed p)); [discriminate|].
    destruct (mem x (flag p)); [discriminate|]. inversion H; subst; auto.
  - destruct (mem x (removed p)); [|discriminate]. inversion H; subst; auto.
  - exfalso. apply (Hn w rdy). reflexivity.
  - destruct (locked p); [discriminate|]. destruct (nth_error (workers p) w) as [[|x|x en']|] eqn:Ew; try discriminate.
    destruct (mem x (freed p)); [discriminate|]. inversion H; subst; auto.
  - destruct (nth_error (workers p) w) as [[|x|x en]|] eqn:Ew; try discriminate.
    destruct (mem x (freed p)); [discriminate|]. inversion H; subst. cbn. apply in_pushAll. exact Hin.
Qed.

Lemma kept_one_worker p tr e p' s o : prun idof (newPool 1) p tr -> pstep idof p e = Next p' s ->
  In o (queue p) -> In o (queue p') \/ s = Some o.
Proof.
  intros HR H Hin. pose proof (inv_run _ _ _ HR) as [Hc _]. pose proof (run_nworkers _ _ _ HR) as Hl.
  destruct e as [x|i|x|x|w rdy|w en|w pend];
    try (left; eapply kept_not_look; [exact H|discriminate|exact Hin]).
  apply (kept_unless_running p (Look w rdy) p' s o H Hin).
  intros Hf. cbn [pstep] in H. destruct (locked p); [discriminate|].
  destruct (nth_error (workers p) w) as [[|x|x en]|] eqn:Ew; try discriminate.
  apply (count_occ_In Nat.eq_dec) in Hf. fold (cnt o (flag p)) in Hf. rewrite Hc in Hf.
  destruct (workers p) as [|h [|h2 t]]; [discriminate|destruct w as [|[|w]]; cbn in Ew; try discriminate|discriminate].
  inversion Ew; subst. cbn in Hf. lia.
Qed.

(** A wake-up of a registered identifier puts it into the schedule. *)
Lemma pushBack_has q o : exists x, In x (pushBack idof q o) /\ idof x = idof o.
Proof.
  unfold pushBack. destruct (existsb _ q) eqn:E.
  - apply existsb_exists in E. destruct E as (x & Hx & Ex). apply Z.eqb_eq in Ex. eauto.
  - exists o. split; [apply in_or_app; right; left; reflexivity|reflexivity].
Qed.

Lemma pushAll_has m en : forall q i o, In i en -> mfind i m = Some o ->
  exists x, In x (pushAll idof m q en) /\ idof x = idof o.
Proof.
  induction en as [|j t IH]; intros q i o Hi Hm; cbn; [contradiction|].
  destruct Hi as [E|Hi].
  - subst j. rewrite Hm. destruct (pushBack_has q o) as (x & Hx & Ex). exists x. split; [apply in_pushAll; exact Hx|exact Ex].
  - apply (IH _ i o Hi Hm).
Qed.

Lemma wakeup_scheduled p w pend p' s o en i y :
  nth_error (workers p) w = Some (Settling o en) ->
  pstep idof p (Settle w pend) = Next p' s ->
  (In i en \/ (pend = true /\ i = idof o)) -> mfind i (regs p) = Some y ->
  exists x, In x (queue p') /\ idof x = idof y.
Proof.
  intros Ew H Hi Hm. cbn [pstep] in H. rewrite Ew in H.
  destruct (mem o (freed p)); [discriminate|]. inversion H; subst; clear H. cbn [queue].
  apply (pushAll_has _ _ _ i y); [|exact Hm]. apply in_or_app.
  destruct Hi as [Hi|[E1 E2]]; [auto|]. subst. right. left. reflexivity.
Qed.

(** An idle worker that looks serves the first scheduled filter that is not running. *)
Lemma scan_first p rdy q1 o q2 : (forall x, In x q1 -> In x (flag p) /\ ~ In x (freed p)) ->
  ~ In o (flag p) -> ~ In o (freed p) -> rdy o = true -> scan p rdy (q1 ++ o :: q2) = Job o.
Proof.
  intros H1 Hf Hd Hr. induction q1 as [|x t IH]; cbn.
  - apply mem_false in Hf, Hd. rewrite Hf, Hd, Hr. reflexivity.
  - destruct (H1 x) as [Hx Hy]; [left; reflexivity|]. apply mem_iff in Hx. apply mem_false in Hy. rewrite Hx, Hy.
    apply IH. intros z Hz. apply H1. right. exact Hz.
Qed.

Lemma served p w rdy q1 o q2 : locked p = false -> nth_error (workers p) w = Some Idle ->
  queue p = q1 ++ o :: q2 -> (forall x, In x q1 -> In x (flag p) /\ ~ In x (freed p)) ->
  ~ In o (flag p) -> ~ In o (freed p) -> rdy o = true ->
  exists p', pstep idof p (Look w rdy) = Next p' (Some o).
Proof.
  intros Hl Hw Hq H1 Hf Hd Hr. cbn [pstep]. rewrite Hl, Hw, Hq.
  rewrite (scan_first p rdy q1 o q2 H1 Hf Hd Hr). eexists. reflexivity.
Qed.

(** ** Removal *)
Record cinv (p : pool) : Prop := {
  c_out : forall o, In o (leaving p) \/ In o (removed p) ->
     ~ In o (queue p) /\ (forall s, In s (workers p) -> ~ handles s o) /\ (forall i, mfind i (regs p) <> Some o);
  c_freed : forall o, In o (freed p) -> In o (removed p);
  c_disj : forall o, In o (leaving p) -> ~ In o (removed p);
  c_nodup : NoDup (leaving p);
  c_sorted : msorted (regs p);
  c_key : forall i o, mfind i (regs p) = Some o -> idof o = i
}.

Lemma in_upd {A} (l : list A) w x y : In y (upd l w x) -> y = x \/ In y l.
Proof.
  revert w; induction l as [|h t IH]; intros [|w]; cbn; auto.
  - intros [H|H]; auto.
  - intros [H|H]; auto. destruct (IH w H); auto.
Qed.

Lemma pushBack_in q o x : In x (pushBack idof q o) -> In x q \/ x = o.
Proof.
  unfold pushBack. destruct (existsb _ q); [auto|]. intros H. apply in_app_or in H. destruct H as [H|[H|[]]]; auto.
Qed.
Lemma pushAll_in m en : forall q x, In x (pushAll idof m q en) -> In x q \/ exists i, mfind i m = Some x.
Proof.
  induction en as [|i t IH]; intros q x H; cbn in H; [auto|].
  destruct (IH _ _ H) as [H1|H1]; [|auto].
  destruct (mfind i m) as [o|] eqn:E; [|auto]. destruct (pushBack_in _ _ _ H1) as [H2|H2]; [auto|]. subst. eauto.
Qed.

Lemma del_in o x l : In x (del o l) -> In x l.
Proof. induction l as [|h t IH]; cbn; [auto|]. destruct (o =? h); cbn; intuition. Qed.

Lemma del_nodup o l : NoDup l -> NoDup (del o l).
Proof.
  induction 1 as [|h t Hh Ht IH]; cbn; [constructor|]. destruct (o =? h); [exact Ht|].
  constructor; [|exact IH]. intros H. apply Hh. apply (del_in _ _ _ H).
Qed.
Lemma del_gone o l : NoDup l -> ~ In o (del o l).
Proof.
  induction 1 as [|h t Hh Ht IH]; cbn; [auto|]. destruct (Nat.eqb_spec o h) as [E|E]; [subst; exact Hh|].
  cbn. intros [H|H]; [congruence|apply IH; exact H].
Qed.

Lemma cinv_new n : cinv (newPool n).
Proof.
  split; cbn; try contradiction; try exact I.
  - intros o [[]|[]].
  - constructor.
  - intros i o H; discriminate.
Qed.

Lemma cinv_step p e p' s : cinv p -> calm p e -> pstep idof p e = Next p' s -> cinv p'.
Proof.
  intros C Hcalm H. pose proof C as [Ho Hfr Hdj Hnd Hso Hk].
  destruct e as [o|i|o|o|w rdy|w en|w pend]; cbn [pstep] in H; cbn [calm] in Hcalm.
  - destruct (locked p); [discriminate|]. destruct (mem o (freed p)); [discriminate|].
    destruct (idof o <? 0)%Z; [inversion H; subst; exact C|].
    destruct (mfind (idof o) (regs p)) eqn:Em; inversion H; subst; [exact C|]. clear H.
    split; cbn [queue workers regs leaving removed freed]; try assumption.
    + intros x Hx. destruct (Ho x Hx) as (H1 & H2 & H3).
      assert (Hxo : x <> o). { intros E; subst. destruct Hcalm. destruct Hx; contradiction. }
      split; [|split; [exact H2|]].
      * intros Hq. destruct (pushBack_in _ _ _ Hq); [contradiction|congruence].
      * intros i Hi. rewrite mfind_mset in Hi by exact Hso.
        destruct (Z.eqb i (idof o)); [congruence|]. apply (H3 i Hi).
    + apply msorted_mset. exact Hso.
    + intros i x Hi. rewrite mfind_mset in Hi by exact Hso. destruct (Z.eqb_spec i (idof o)); [congruence|].
      apply (Hk i x Hi).
  - destruct (locked p); [discriminate|]. destruct (mfind i (regs p)) as [o|] eqn:Em; inversion H; subst; [|exact C].
    clear H. destruct (Hcalm o eq_refl) as [Hq Hw].
    split; cbn [queue workers regs leaving removed freed]; try assumption.
    + intros x Hx.
      assert (HX : x = o \/ (In x (leaving p) \/ In x (removed p))) by (destruct Hx as [[E|E]|E]; auto).
      destruct HX as [E|HX].
      * subst x. split; [exact Hq|]. split; [exact Hw|]. intros j Hj. rewrite mfind_mdel in Hj by exact Hso.
        destruct (Z.eqb_spec j i); [discriminate|]. pose proof (Hk _ _ Hj). pose proof (Hk _ _ Em). congruence.
      * destruct (Ho x HX) as (H1 & H2 & H3). split; [exact H1|]. split; [exact H2|].
        intros j Hj. rewrite mfind_mdel in Hj by exact Hso. destruct (Z.eqb j i); [discriminate|]. apply (H3 j Hj).
    + intros x [E|Hx]; [|apply Hdj; exact Hx]. subst x. intros Hr. destruct (Ho o (or_intror Hr)) as (_ & _ & H3).
      apply (H3 i Em).
    + constructor; [|exact Hnd]. intros Hr. destruct (Ho o (or_introl Hr)) as (_ & _ & H3). apply (H3 i Em).
    + apply msorted_mdel. exact Hso.
    + intros j x Hj. rewrite mfind_mdel in Hj by exact Hso. destruct (Z.eqb j i); [discriminate|]. apply (Hk j x Hj).
  - destruct (mem o (leaving p)) eqn:El; cbn [negb] in H; [|discriminate]. destruct (mem o (freed p)); [discriminate|].
    destruct (mem o (flag p)); [discriminate|]. inversion H; subst; clear H. apply mem_iff in El.
    split; cbn [queue workers regs leaving removed freed]; try assumption.
    + intros x Hx. apply Ho. destruct Hx as [Hx|[E|Hx]]; [left; apply (del_in _ _ _ Hx)|subst; auto|auto].
    + intros x Hx. right. apply Hfr. exact Hx.
    + intros x Hx [E|E]; [|apply (Hdj x (del_in _ _ _ Hx) E)]. subst x. apply (del_gone o (leaving p) Hnd Hx).
    + apply del_nodup. exact Hnd.
  - destruct (mem o (removed p)) eqn:Er; [|discriminate]. inversion H; subst; clear H. apply mem_iff in Er.
    split; cbn [queue workers regs leaving removed freed]; try assumption.
    intros x [E|Hx]; [subst; exact Er|apply Hfr; exact Hx].
  - destruct (locked p); [discriminate|]. destruct (nth_error (workers p) w) as [[|x|x en]|] eqn:Ew; try discriminate.
    destruct (scan p rdy (queue p)) as [y| |] eqn:Es; try discriminate; [|inversion H; subst; exact C].
    inversion H; subst; clear H. destruct (scan_job _ _ _ _ Es) as (Hin & _).
    split; cbn [queue workers regs leaving removed freed]; try assumption.
    intros x Hx. destruct (Ho x Hx) as (H1 & H2 & H3).
    split; [|split; [|exact H3]].
    + unfold pop. intros Hq. apply H1. destruct (queue p); cbn in *; auto.
    + intros s Hs. destruct (in_upd _ _ _ _ Hs) as [E|E]; [|apply H2; exact E]. subst s. cbn. congruence.
  - destruct (locked p); [discriminate|]. destruct (nth_error (workers p) w) as [[|x|x en']|] eqn:Ew; try discriminate.
    destruct (mem x (freed p)); [discriminate|]. inversion H; subst; clear H.
    split; cbn [queue workers regs leaving removed freed]; try assumption.
    intros y Hy. destruct (Ho y Hy) as (H1 & H2 & H3). split; [exact H1|]. split; [|exact H3].
    intros s Hs. destruct (in_upd _ _ _ _ Hs) as [E|E]; [|apply H2; exact E]. subst s.
    apply nth_error_In in Ew. apply H2 in Ew. exact Ew.
  - destruct (nth_error (workers p) w) as [[|x|x en]|] eqn:Ew; try discriminate.
    destruct (mem x (freed p)); [discriminate|]. inversion H; subst; clear H.
    split; cbn [queue workers regs leaving removed freed]; try assumption.
    intros y Hy. destruct (Ho y Hy) as (H1 & H2 & H3). split; [|split; [|exact H3]].
    + intros Hq. destruct (pushAll_in _ _ _ _ Hq) as [E|(j & E)]; [contradiction|apply (H3 j E)].
    + intros s Hs. destruct (in_upd _ _ _ _ Hs) as [E|E]; [|apply H2; exact E]. subst s. cbn. auto.
Qed.

Lemma cinv_run n p tr : calm_run idof (newPool n) p tr -> cinv p.
Proof. induction 1; [apply cinv_new|eapply cinv_step; eassumption]. Qed.

Lemma calm_no_uaf p e : cinv p -> calm p e -> pstep idof p e <> UseAfterFree.
Proof.
  intros [Ho Hfr Hdj Hnd Hso Hk] Hc H.
  assert (HF : forall o, In o (freed p) -> ~ In o (queue p) /\ (forall s, In s (workers p) -> ~ handles s o)).
  { intros o Hi. destruct (Ho o (or_intror (Hfr o Hi))) as (A & B & _). auto. }
  destruct e as [o|i|o|o|w rdy|w en|w pend]; cbn [pstep] in H; cbn [calm] in Hc.
  - destruct (locked p); [discriminate|]. destruct (mem o (freed p)) eqn:E.
    + apply mem_iff in E. destruct Hc as [_ Hc]. apply Hc, Hfr, E.
    + destruct (idof o <? 0)%Z; [discriminate|]. destruct (mfind (idof o) (regs p)); discriminate.
  - destruct (locked p); [discriminate|]. destruct (mfind i (regs p)); discriminate.
  - (* an object that is waited for has not been freed *)
    destruct (mem o (leaving p)) eqn:El; cbn [negb] in H; [|discriminate]. destruct (mem o (freed p)) eqn:E.
    + apply mem_iff in E, El. apply (Hdj o El). apply Hfr. exact E.
    + destruct (mem o (flag p)); discriminate.
  - destruct (mem o (removed p)); discriminate.
  - destruct (locked p); [discriminate|]. destruct (nth_error (workers p) w) as [[|x|x en]|] eqn:Ew; try discriminate.
    destruct (scan p rdy (queue p)) as [y| |] eqn:Es; try discriminate.
    assert (HD : exists o, In o (queue p) /\ In o (freed p)).
    { clear -Es. induction (queue p) as [|h t IH]; cbn in Es; [discriminate|].
      destruct (mem h (freed p)) eqn:E; [apply mem_iff in E; exists h; split; [left; reflexivity|exact E]|].
      destruct (mem h (flag p)); [|destruct (rdy h); discriminate].
      destruct (IH Es) as (o & A & B). exists o. split; [right; exact A|exact B]. }
    destruct HD as (o & A & B). destruct (HF o B). contradiction.
  - destruct (locked p); [discriminate|]. destruct (nth_error (workers p) w) as [[|x|x en']|] eqn:Ew; try discriminate.
    destruct (mem x (freed p)) eqn:E; [|discriminate]. apply mem_iff in E. destruct (HF x E) as [_ B].
    apply nth_error_In in Ew. apply (B _ Ew). reflexivity.
  - destruct (nth_error (workers p) w) as [[|x|x en]|] eqn:Ew; try discriminate.
    destruct (mem x (freed p)) eqn:E; [|discriminate]. apply mem_iff in E. destruct (HF x E) as [_ B].
    apply nth_error_In in Ew. apply (B _ Ew). reflexivity.
Qed.
End Proofs.
