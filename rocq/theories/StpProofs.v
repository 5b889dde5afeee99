(** Proofs for C103. *)
From Verif Require Import Base StpModel StpSpec.
Local Open Scope nat_scope.

(** *** Lists of workers *)
Lemma upd_same l : forall i x a, nth_error l i = Some a -> nth_error (upd l i x) i = Some x.
Proof. induction l as [|b l IH]; intros [|i] x a H; try discriminate; [reflexivity|]. cbn in *. eapply IH; eauto. Qed.
Lemma upd_other l : forall i j x, i <> j -> nth_error (upd l i x) j = nth_error l j.
Proof. induction l as [|b l IH]; intros [|i] [|j] x N; try reflexivity; try congruence. cbn. apply IH. congruence. Qed.
Lemma upd_length l : forall i x, length (upd l i x) = length l.
Proof. induction l as [|b l IH]; intros [|i] x; try reflexivity. cbn. rewrite IH. reflexivity. Qed.
Definition sum (l : list nat) : nat := fold_right Nat.add 0 l.
Lemma sum_upd (m : wpc -> nat) l : forall i a x, nth_error l i = Some a -> sum (map m (upd l i x)) + m a = sum (map m l) + m x.
Proof.
  induction l as [|b l IH]; intros [|i] a x H; try discriminate; cbn in H.
  - injection H as ->. cbn. lia.
  - specialize (IH i a x H). cbn [upd map]. change (sum (m b :: map m (upd l i x))) with (m b + sum (map m (upd l i x))).
    change (sum (m b :: map m l)) with (m b + sum (map m l)). lia.
Qed.
Lemma sum_le (m : wpc -> nat) l i a : nth_error l i = Some a -> m a <= sum (map m l).
Proof.
  revert i. induction l as [|b l IH]; intros [|i] H; try discriminate; cbn in H; cbn [map]; change (sum (m b :: map m l)) with (m b + sum (map m l)).
  - injection H as ->. lia.
  - specialize (IH i H). lia.
Qed.

(** *** The lock *)
Definition holds (x : wpc) : bool := match x with Loop | Looks | Behind | Begins | Putting => true | _ => false end.
Record inv (s : pool) : Prop := mkInv {
  iH : forall i x, nth_error (wk s) i = Some x -> (holds x = true <-> lock s = Some (W i));
  iB : forall i, lock s = Some (W i) -> exists x, nth_error (wk s) i = Some x;
  iR : running s = false <-> stopper s <> Idle;
  iJ : forall k j, stopper s = Joining k -> j < k -> nth_error (wk s) j = Some Ended;
  iK : forall k, stopper s = Joining k -> k <= length (wk s);
  iS : stopper s = Stopped -> forall j, j < length (wk s) -> nth_error (wk s) j = Some Ended }.

Lemma inv_new n c : inv (newPool n c).
Proof.
  split; cbn [newPool wk lock running stopper]; try discriminate.
  - intros i x H. apply nth_error_In in H. apply repeat_spec in H. subst x. split; discriminate.
  - split; [discriminate|intros H; exfalso; apply H; reflexivity].
Qed.

Lemma inv_move s i a x l : inv s -> nth_error (wk s) i = Some a -> a <> Ended ->
  (holds a = true \/ lock s = None \/ (holds x = false /\ l = lock s)) ->
  l = (if holds x then Some (W i) else if holds a then None else lock s) -> inv (move s i x l).
Proof.
  intros [H B R J K S] N E C L.
  assert (Own: forall j y, nth_error (wk s) j = Some y -> j <> i -> holds a = true \/ lock s = None -> holds y = false).
  { intros j y Nj D [HA|HN].
    - destruct (holds y) eqn:Y; [|reflexivity]. apply (H _ _ N) in HA. apply (H _ _ Nj) in Y. congruence.
    - destruct (holds y) eqn:Y; [|reflexivity]. apply (H _ _ Nj) in Y. congruence. }
  split; cbn [move wk lock running stopper].
  - intros j y Nj. destruct (Nat.eq_dec j i) as [->|D].
    + rewrite (upd_same _ _ _ _ N) in Nj. injection Nj as <-. destruct (holds x) eqn:X; [subst l; split; reflexivity|].
      split; [discriminate|]. intros Q. exfalso. destruct (holds a) eqn:A; [congruence|]. rewrite L in Q. apply (H _ _ N) in Q. congruence.
    + rewrite upd_other in Nj by congruence. destruct (holds x) eqn:X.
      * assert (Y: holds y = false) by (apply (Own j y Nj D); destruct C as [C|[C|[C _]]]; [left; exact C|right; exact C|discriminate]).
        rewrite Y, L. split; [discriminate|]. intros Q. congruence.
      * destruct (holds a) eqn:A; [|rewrite L; apply (H _ _ Nj)].
        assert (Y: holds y = false) by (apply (Own j y Nj D); left; reflexivity). rewrite Y, L. split; discriminate.
  - intros j Q. destruct (Nat.eq_dec j i) as [->|D]; [exists x; eapply upd_same; eauto|]. rewrite upd_other by congruence.
    apply B. destruct (holds x); [congruence|]. destruct (holds a); congruence.
  - exact R.
  - intros k j Q Lt. specialize (J k j Q Lt). rewrite upd_other; [exact J|]. intros ->. congruence.
  - rewrite upd_length. exact K.
  - intros Q j Lt. rewrite upd_length in Lt. specialize (S Q j Lt). rewrite upd_other; [exact S|]. intros ->. congruence.
Qed.

Lemma inv_step s e s' : step s e s' -> inv s -> inv s'.
Proof.
  intros T I.
  destruct T;
    try (match goal with N : nth_error (wk s) ?i = Some ?a |- inv (move s ?i _ _) =>
       eapply (inv_move s i a); [exact I|exact N|discriminate| |];
       [first [left; reflexivity | right; left; assumption | right; right; split; reflexivity]
       |cbn [holds]; first [reflexivity | apply (iH s I i a N); reflexivity]] end);
    destruct I as [iH0 iB0 iR0 iJ0 iK0 iS0].
  - (* call *) split; cbn [wk lock running stopper]; try assumption; [|discriminate].
    intros i x N. split; [|discriminate]. intros X. apply (iH0 _ _ N) in X. congruence.
  - split; cbn [wk lock running stopper]; try assumption; [|discriminate].
    intros i x N. split; [|discriminate]. intros X. apply (iH0 _ _ N) in X. congruence.
  - split; cbn [wk lock running stopper]; try assumption; try discriminate. split; [discriminate|reflexivity].
  - (* notify *) split; cbn [wk lock running stopper].
    + intros i x N. rewrite nth_error_map in N. destruct (nth_error (wk s) i) as [y|] eqn:E; [|discriminate]. injection N as <-.
      rewrite <- (iH0 i y E). destruct y; reflexivity.
    + intros i Q. destruct (iB0 i Q) as [x N]. exists (wake x). rewrite nth_error_map, N. reflexivity.
    + split; [discriminate|intros _; apply iR0; congruence].
    + intros k j Q Lt. injection Q as <-. lia.
    + intros k Q. injection Q as <-. lia.
    + discriminate.
  - (* join *) split; cbn [wk lock running stopper]; try assumption; try discriminate.
    + split; [discriminate|intros _; apply iR0; congruence].
    + intros k' j Q Lt. injection Q as <-. destruct (Nat.eq_dec j k) as [->|D]; [assumption|]. apply (iJ0 k j); [assumption|lia].
    + intros k' Q. injection Q as <-. apply nth_error_Some. congruence.
  - (* return *) split; cbn [wk lock running stopper]; try assumption; try discriminate.
    + split; [discriminate|intros _; apply iR0; congruence].
    + intros _ j Lt. apply (iJ0 (length (wk s)) j); assumption.
Qed.
Lemma inv_steps s es s' : steps s es s' -> inv s -> inv s'.
Proof. induction 1; intros I; [exact I|]. eapply inv_step; [eassumption|auto]. Qed.

(** *** Stopping ends *)
Definition wgt (x : wpc) : nat :=
  match x with
  | Ended => 0 | Behind => 1 | Loop => 2 | Woken => 3 | Top => 3 | Waiting => 4 | Looks => 5 | Putting => 4 | Want => 5 | Working => 6 | Begins => 7
  end.
Definition sgt (n : nat) (x : spc) : nat :=
  match x with Idle => n + 3 | Notifying => n + 2 | Joining k => n + 1 - k | Stopped => 0 end.
Definition lgt (l : option holder) : nat := match l with Some Client => 1 | _ => 0 end.
Definition weight (s : pool) : nat := sum (map wgt (wk s)) + sgt (length (wk s)) (stopper s) + lgt (lock s) + 2 * calls s.

Lemma sum_wake l : sum (map wgt (map wake l)) <= sum (map wgt l).
Proof.
  induction l as [|x l IH]; [cbn; lia|]. cbn [map]. change (sum (wgt (wake x) :: map wgt (map wake l))) with (wgt (wake x) + sum (map wgt (map wake l))).
  change (sum (wgt x :: map wgt l)) with (wgt x + sum (map wgt l)). assert (wgt (wake x) <= wgt x) by (destruct x; cbn; lia). lia.
Qed.
Lemma weight_move s i a x l : nth_error (wk s) i = Some a -> wgt x < wgt a -> lgt l <= lgt (lock s) -> weight (move s i x l) < weight s.
Proof.
  intros N G L. unfold weight, move. cbn [wk stopper lock calls]. rewrite upd_length. pose proof (sum_upd wgt (wk s) i a x N). lia.
Qed.
Lemma weight_step s e s' : step s e s' -> inv s -> running s = false -> weight s' < weight s.
Proof.
  intros T I R. destruct T; try congruence;
    try (eapply weight_move; [eassumption|cbn; lia|cbn [lgt]; lia]).
  - unfold weight. cbn [wk stopper lock calls]. rewrite H, H0. cbn [lgt]. lia.
  - unfold weight. cbn [wk stopper lock calls]. rewrite H. cbn [lgt]. lia.
  - unfold weight. cbn [wk stopper lock calls]. rewrite H. cbn [sgt]. lia.
  - unfold weight. cbn [wk stopper lock calls]. rewrite map_length, H. cbn [sgt]. pose proof (sum_wake (wk s)). lia.
  - unfold weight. cbn [wk stopper lock calls]. rewrite H. cbn [sgt]. pose proof (iK s I k H) as K.
    assert (k < length (wk s)) by (apply nth_error_Some; congruence). lia.
  - unfold weight. cbn [wk stopper lock calls]. rewrite H. cbn [sgt]. lia.
Qed.
Lemma running_step s e s' : step s e s' -> running s = false -> running s' = false.
Proof. intros T R. destruct T; cbn [move running]; congruence. Qed.
Lemma weight_steps s es s' : steps s es s' -> inv s -> running s = false -> inv s' /\ running s' = false /\ length es + weight s' <= weight s.
Proof.
  induction 1 as [s|s es s1 e s2 T IH P]; intros I R; [cbn; auto|]. destruct (IH I R) as (I1 & R1 & L1).
  pose proof (weight_step _ _ _ P I1 R1). split; [eapply inv_step; eauto|]. split; [eapply running_step; eauto|]. cbn [length]. lia.
Qed.

(** *** It cannot get stuck *)
Lemma progress s : inv s -> running s = false -> still s -> allEnded s /\ stopper s = Stopped.
Proof.
  intros I R Q. assert (A: forall i x, nth_error (wk s) i = Some x -> x = Ended).
  { destruct (lock s) as [[i|]|] eqn:L.
    - exfalso. destruct (iB s I i L) as [x N]. assert (Hx: holds x = true) by (apply (iH s I i x N); exact L).
      destruct x; try discriminate; eapply Q; [eapply st_out|eapply st_wait|eapply st_end|eapply st_begin|eapply st_put]; eauto.
    - exfalso. eapply Q. apply st_called. exact L.
    - intros i x N. assert (Hx: holds x = false).
      { destruct (holds x) eqn:E; [|reflexivity]. apply (iH s I i x N) in E. congruence. }
      destruct x; try discriminate; try reflexivity; exfalso; eapply Q;
        [eapply st_top|eapply st_wake|eapply st_again|eapply st_finish|eapply st_lock]; eauto. }
  split.
  - unfold allEnded. apply Forall_forall. intros x H. apply In_nth_error in H. destruct H as [i N]. eauto.
  - destruct (stopper s) as [| |k|] eqn:E; [| | |reflexivity]; exfalso.
    + apply (iR s I) in R. congruence.
    + eapply Q. apply st_notify. exact E.
    + pose proof (iK s I k E) as K. destruct (Nat.eq_dec k (length (wk s))) as [->|D]; [eapply Q; apply st_return; exact E|].
      destruct (nth_error (wk s) k) as [x|] eqn:N; [|apply nth_error_None in N; lia].
      rewrite (A k x N) in N. eapply Q. eapply st_join; eauto.
Qed.

(** *** What was seen *)
Lemma asked_iff n c es s : steps (newPool n c) es s -> (In Stop es <-> stopper s <> Idle) /\ (In Return es <-> stopper s = Stopped).
Proof.
  intros T. remember (newPool n c) as s0. induction T as [s|s es s1 e s2 T IH P].
  - subst s. cbn. split; split; intros H; try contradiction; try discriminate.
  - specialize (IH Heqs0). destruct IH as [IH1 IH2]. cbn [In].
    destruct P; cbn [move stopper]; rewrite ?IH1, ?IH2;
      (split; split; [intros [E|E]|intros E|intros [E|E]|intros E]; try discriminate; try congruence; try (right; congruence); auto).
Qed.
Lemma seen n c es s : steps (newPool n c) es s ->
  forall i, begun i es = finished i es + match nth_error (wk s) i with Some Working => 1 | _ => 0 end.
Proof.
  intros T. remember (newPool n c) as s0. induction T as [s|s es s1 e s2 T IH P]; intros i.
  - subst s. cbn [newPool wk]. destruct (nth_error (repeat Top n) i) as [x|] eqn:N; [|reflexivity].
    apply nth_error_In in N. apply repeat_spec in N. subst x. reflexivity.
  - specialize (IH Heqs0 i). unfold begun, finished in *.
    destruct P; cbn [filter move wk] in *;
      try (match goal with N : nth_error (wk _) ?k = Some _ |- context [upd _ ?k _] => destruct (Nat.eq_dec i k) as [->|D];
           [rewrite (upd_same _ _ _ _ N); rewrite N in IH; rewrite ?Nat.eqb_refl; cbn [length]; lia
           |rewrite upd_other by congruence; assert (E: (k =? i) = false) by (apply Nat.eqb_neq; congruence); rewrite ?E; exact IH] end);
      try exact IH.
    rewrite nth_error_map. destruct (nth_error (wk _) i) as [[]|]; exact IH.
Qed.

(** *** At most one more *)
Definition isBegins (x : wpc) : nat := match x with Begins => 1 | _ => 0 end.
Definition bg (s : pool) : nat := sum (map isBegins (wk s)).
Lemma sum_zero (m : wpc -> nat) l : (forall j x, nth_error l j = Some x -> m x = 0) -> sum (map m l) = 0.
Proof.
  induction l as [|b l IH]; intros H; [reflexivity|]. cbn [map]. change (sum (m b :: map m l)) with (m b + sum (map m l)).
  rewrite (H 0 b eq_refl), IH; [reflexivity|]. intros j x N. exact (H (S j) x N).
Qed.
Lemma bg_one s : inv s -> bg s <= 1.
Proof.
  intros I. unfold bg. destruct (sum (map isBegins (wk s))) as [|[|n]] eqn:E; [lia|lia|exfalso].
  assert (X: exists i, nth_error (wk s) i = Some Begins).
  { destruct (lock s) as [[i|]|] eqn:L.
    - destruct (iB s I i L) as [x N]. destruct x; try (exists i; exact N); exfalso;
        (rewrite sum_zero in E; [discriminate|]; intros j y Nj; destruct y; try reflexivity; exfalso;
         assert (Y: lock s = Some (W j)) by (apply (iH s I j _ Nj); reflexivity); rewrite L in Y; injection Y as <-; congruence).
    - exfalso. rewrite sum_zero in E; [discriminate|]. intros j y Nj. destruct y; try reflexivity. exfalso.
      assert (Y: lock s = Some (W j)) by (apply (iH s I j _ Nj); reflexivity). congruence.
    - exfalso. rewrite sum_zero in E; [discriminate|]. intros j y Nj. destruct y; try reflexivity. exfalso.
      assert (Y: lock s = Some (W j)) by (apply (iH s I j _ Nj); reflexivity). congruence. }
  destruct X as [i N]. pose proof (sum_upd isBegins (wk s) i Begins Ended N) as U. cbn [isBegins] in U.
  rewrite sum_zero in U; [lia|]. intros j y Nj. destruct (Nat.eq_dec j i) as [->|D].
  - rewrite (upd_same _ _ _ _ N) in Nj. injection Nj as <-. reflexivity.
  - rewrite upd_other in Nj by congruence. destruct y; try reflexivity. exfalso.
    assert (Y: lock s = Some (W j)) by (apply (iH s I j _ Nj); reflexivity).
    assert (Z: lock s = Some (W i)) by (apply (iH s I i _ N); reflexivity). congruence.
Qed.
Lemma bg_step s e s' : step s e s' -> running s = false -> (match e with Begin _ => 1 | _ => 0 end) + bg s' <= bg s.
Proof.
  intros T R. unfold bg. destruct T; try congruence; cbn [move wk];
    try (match goal with N : nth_error (wk s) ?i = Some ?a |- context [upd (wk s) ?i ?x] => pose proof (sum_upd isBegins (wk s) i a x N) as U; cbn [isBegins] in U; lia end);
    try lia.
  assert (X: map isBegins (map wake (wk s)) = map isBegins (wk s)) by (rewrite map_map; apply map_ext; intros []; reflexivity). rewrite X. lia.
Qed.
Lemma bg_steps s es s' : steps s es s' -> running s = false -> running s' = false /\ begins es + bg s' <= bg s.
Proof.
  induction 1 as [s|s es s1 e s2 T IH P]; intros R; [split; [exact R|cbn; lia]|]. destruct (IH R) as [R1 L].
  split; [eapply running_step; eauto|]. pose proof (bg_step _ _ _ P R1) as B. unfold begins in *. cbn [filter].
  destruct e; cbn [length]; lia.
Qed.
Lemma steps_split s es1 es2 s' : steps s (es2 ++ es1) s' -> exists s1, steps s es1 s1 /\ steps s1 es2 s'.
Proof.
  revert s'. induction es2 as [|e es2 IH]; intros s' T; [exists s'; split; [exact T|constructor]|].
  cbn [app] in T. inversion T; subst. destruct (IH _ H2) as (s2 & A & B). exists s2. split; [exact A|econstructor; eauto].
Qed.
Lemma steps_app s es1 s1 es2 s2 : steps s es1 s1 -> steps s1 es2 s2 -> steps s (es2 ++ es1) s2.
Proof. intros A B. induction B; [exact A|]. cbn [app]. econstructor; eauto. Qed.
