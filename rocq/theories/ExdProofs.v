From Coq Require Import Arith ZArith List Bool Lia.
From Verif Require Import ExdModel ExdSpec.
Import ListNotations.
Local Open Scope list_scope.

Lemma put_len : forall A n (x : A) l, length (put n x l) = length l.
Proof. induction n as [|n IH]; intros x [|y l]; cbn; auto. Qed.
Lemma nth_put : forall A n (x : A) l m, nth_error (put n x l) m = if (m =? n) && (m <? length l) then Some x else nth_error l m.
Proof.
  induction n as [|n IH]; intros x l m; destruct l as [|y l]; cbn [put length].
  - destruct m; cbn; reflexivity.
  - destruct m as [|m]; cbn; reflexivity.
  - destruct m as [|m]; cbn; [reflexivity|]. destruct (m =? n); reflexivity.
  - destruct m as [|m]; cbn; [reflexivity|]. rewrite IH. reflexivity.
Qed.
Lemma at_nth : forall A n (l : list (option A)) x, at_ n l = Some x <-> nth_error l n = Some (Some x).
Proof. intros A n l x. unfold at_. destruct (nth_error l n) as [[y|]|]; split; intro H; try discriminate; inversion H; reflexivity. Qed.
Lemma at_lt : forall A n (l : list (option A)) x, at_ n l = Some x -> n < length l.
Proof. intros A n l x H. apply at_nth in H. apply nth_error_Some. rewrite H. discriminate. Qed.
Lemma at_put_same : forall A n (x : option A) l, n < length l -> at_ n (put n x l) = x.
Proof. intros A n x l H. unfold at_. rewrite nth_put, Nat.eqb_refl. apply Nat.ltb_lt in H. rewrite H. cbn. reflexivity. Qed.
Lemma at_put_other : forall A n m (x : option A) l, m <> n -> at_ m (put n x l) = at_ m l.
Proof. intros A n m x l H. unfold at_. rewrite nth_put. apply Nat.eqb_neq in H. rewrite H. reflexivity. Qed.
Lemma at_app : forall A m (x : option A) l, at_ m (l ++ [x]) = if m =? length l then x else at_ m l.
Proof.
  intros A m x l. unfold at_. destruct (m =? length l) eqn:E.
  - apply Nat.eqb_eq in E. subst m. rewrite nth_error_app2 by lia. rewrite Nat.sub_diag. reflexivity.
  - apply Nat.eqb_neq in E. destruct (Nat.lt_ge_cases m (length l)) as [L|L].
    + rewrite nth_error_app1 by exact L. reflexivity.
    + rewrite nth_error_app2 by exact L. destruct (m - length l) as [|k] eqn:F; [lia|]. cbn. replace (nth_error (@nil (option A)) k) with (@None (option A)) by (destruct k; reflexivity).
      replace (nth_error l m) with (@None (option A)) by (symmetry; apply nth_error_None; exact L). reflexivity.
Qed.
Definition alive (l : list (option (list Z))) : nat := length (filter (fun b => match b with Some _ => true | None => false end) l).
Lemma alive_app : forall l x, alive (l ++ [Some x]) = S (alive l).
Proof. intros l x. unfold alive. rewrite filter_app, app_length. cbn. lia. Qed.
Lemma alive_put : forall n l x, at_ n l = Some x -> S (alive (put n None l)) = alive l.
Proof.
  induction n as [|n IH]; intros [|y l] x H; unfold at_ in H; cbn in H; try discriminate.
  - destruct y; [|discriminate]. unfold alive. cbn. reflexivity.
  - unfold alive in *. cbn. specialize (IH l x H). destruct y; cbn; lia.
Qed.

(** What holds after every history. *)
Record inv (k : known) (s : store) : Prop := mkI {
  i_desc : described k = match cur s with Some _ => true | None => false end;
  i_cur : forall c, cur s = Some c -> exists d, at_ c (descs s) = Some d /\
     match given k with
     | Some x => exists b, extra d = Some b /\ extraSize d = length x /\ at_ b (blocks s) = Some x
     | None => extra d = None /\ extraSize d = 0
     end;
  i_none : cur s = None -> given k = None;
  i_dead : forall n d, at_ n (descs s) = Some d -> cur s = Some n;
  i_join : joined k = match cur s, queue s with Some c, Some q => c =? q | _, _ => false end;
  i_q : forall q, queue s = Some q -> q < length (descs s);
  i_live : alive (blocks s) = match given k with Some _ => 1 | None => 0 end;
  i_ctx : forall b n, ctx s = Some (Some b, n) -> b < length (blocks s)
}.
Lemma inv0 : inv (mkK false None false) store0.
Proof. constructor; cbn; try reflexivity; try discriminate; try (intros; discriminate). intros n d H. unfold at_ in H. destruct n; discriminate. Qed.

Lemma set_cases : forall k s c d x, inv k s -> cur s = Some c -> at_ c (descs s) = Some d ->
  let bl1 := match extra d with Some b => put b None (blocks s) | None => blocks s end in
  length bl1 = length (blocks s) /\ alive bl1 = 0 /\ setExtraData (Some x) (blocks s) d = (bl1 ++ [Some x], mkD (Some (length bl1)) (length x)) /\
  fst (setExtraData None (blocks s) d) = bl1.
Proof.
  intros k s c d x I C D bl1. destruct (i_cur k s I c C) as [d2 [D2 G]]. rewrite D in D2. inversion D2; subst d2.
  pose proof (i_live k s I) as L. split; [|split; [|split]].
  - unfold bl1. destruct (extra d); [apply put_len | reflexivity].
  - unfold bl1. destruct (given k) as [y|].
    + destruct G as [b [E [_ B]]]. rewrite E. pose proof (alive_put b (blocks s) y B). lia.
    + rewrite (proj1 G). exact L.
  - reflexivity.
  - unfold setExtraData. cbn [fst]. reflexivity.
Qed.

Lemma step_inv : forall e k s t, inv k s -> step e s = Some t -> inv (note k e) t.
Proof.
  intros e k s t I H. destruct e as [|x| | | |n]; cbn [step] in H.
  - inversion H; subst t; clear H. unfold newDesc. cbn [note]. pose proof (i_desc k s I) as Dk. destruct (cur s) as [c|] eqn:C.
    + rewrite Dk. exact I.
    + rewrite Dk. constructor; cbn [described given joined blocks descs cur queue ctx].
      * reflexivity.
      * intros c E. inversion E; subst c. exists (mkD None 0). split; [|split; reflexivity]. rewrite at_app, Nat.eqb_refl. reflexivity.
      * discriminate.
      * intros n d E. rewrite at_app in E. destruct (n =? length (descs s)) eqn:F; [apply Nat.eqb_eq in F; subst n; reflexivity|].
        pose proof (i_dead k s I n d E) as Q. rewrite C in Q. discriminate.
      * destruct (queue s) as [q|] eqn:Q; [|reflexivity]. pose proof (i_q k s I q Q) as L. symmetry. apply Nat.eqb_neq. lia.
      * intros q Q. rewrite app_length. pose proof (i_q k s I q Q). lia.
      * rewrite (i_live k s I), (i_none k s I C). reflexivity.
      * exact (i_ctx k s I).
  - unfold headers in H. cbn [note]. pose proof (i_desc k s I) as Dk. destruct (cur s) as [c|] eqn:C.
    2:{ inversion H; subst t. rewrite Dk. exact I. }
    rewrite Dk. destruct (at_ c (descs s)) as [d|] eqn:D; [|discriminate].
    destruct (set_cases k s c d x I C D) as [L1 [A1 [S1 _]]]. cbv zeta in S1, L1, A1. rewrite S1 in H. cbn [fst snd] in H.
    set (bl1 := match extra d with Some b => put b None (blocks s) | None => blocks s end) in *.
    inversion H; subst t; clear H. pose proof (at_lt _ _ _ _ D) as Lc. constructor; cbn [described given joined blocks descs cur queue ctx].
    + reflexivity.
    + intros c2 E. inversion E; subst c2. eexists. split; [apply at_put_same; exact Lc|]. exists (length bl1). cbn [extra extraSize].
      split; [reflexivity|]. split; [reflexivity|]. rewrite at_app, Nat.eqb_refl. reflexivity.
    + discriminate.
    + intros n e E. destruct (Nat.eq_dec n c) as [->|N]; [reflexivity|]. rewrite at_put_other in E by exact N. rewrite <- C. exact (i_dead k s I n e E).
    + rewrite (i_join k s I), C. reflexivity.
    + intros q Q. rewrite put_len. exact (i_q k s I q Q).
    + rewrite alive_app, A1. reflexivity.
    + intros b n E. rewrite app_length, L1. pose proof (i_ctx k s I b n E). lia.
  - unfold gone in H. cbn [note]. destruct (cur s) as [c|] eqn:C.
    2:{ inversion H; subst t. pose proof (i_none k s I C) as G. pose proof (i_desc k s I) as Dk. pose proof (i_join k s I) as J. rewrite C in Dk, J.
        destruct k as [kd kg kj]. cbn in G, Dk, J. subst kd kg kj. exact I. }
    destruct (at_ c (descs s)) as [d|] eqn:D; [|discriminate].
    destruct (set_cases k s c d [] I C D) as [L1 [A1 [_ S1]]]. cbv zeta in S1, L1, A1. rewrite S1 in H.
    set (bl1 := match extra d with Some b => put b None (blocks s) | None => blocks s end) in *.
    inversion H; subst t; clear H. pose proof (at_lt _ _ _ _ D) as Lc. constructor; cbn [described given joined blocks descs cur queue ctx].
    + reflexivity.
    + discriminate.
    + reflexivity.
    + intros n e E. destruct (Nat.eq_dec n c) as [->|N]; [rewrite at_put_same in E by exact Lc; discriminate|].
      rewrite at_put_other in E by exact N. pose proof (i_dead k s I n e E) as Q. rewrite C in Q. inversion Q. congruence.
    + reflexivity.
    + intros q Q. rewrite put_len. exact (i_q k s I q Q).
    + exact A1.
    + intros b n E. rewrite L1. exact (i_ctx k s I b n E).
  - inversion H; subst t; clear H. cbn [note]. unfold plug. constructor; cbn [described given joined blocks descs cur queue ctx].
    + exact (i_desc k s I).
    + exact (i_cur k s I).
    + exact (i_none k s I).
    + exact (i_dead k s I).
    + rewrite (i_desc k s I). destruct (cur s) as [c|]; [symmetry; apply Nat.eqb_refl | reflexivity].
    + intros q Q. destruct (cur s) as [c|] eqn:C; [|exact (i_q k s I q Q)]. inversion Q; subst q.
      destruct (i_cur k s I c C) as [d [D _]]. exact (at_lt _ _ _ _ D).
    + exact (i_live k s I).
    + exact (i_ctx k s I).
  - unfold open in H. cbn [note]. destruct (queue s) as [q|] eqn:Q; [|inversion H; subst t; exact I].
    destruct (at_ q (descs s)) as [d|] eqn:D; [|discriminate]. inversion H; subst t; clear H.
    destruct I as [I1 I2 I3 I4 I5 I6 I7 I8]. constructor; cbn [described given joined blocks descs cur queue ctx]; try assumption.
    + rewrite I5, Q. destruct (cur s); reflexivity.
    + intros q2 F. inversion F; subst q2. exact (I6 q Q).
    + intros b n E. inversion E as [[E1 E2]]. pose proof (I4 q d D) as C. destruct (I2 q C) as [d2 [D2 G]]. rewrite D in D2. inversion D2; subst d2.
      destruct (given k) as [x|]; [|destruct G as [G _]; congruence]. destruct G as [b2 [F [_ B]]]. rewrite E1 in F. inversion F; subst b2. exact (at_lt _ _ _ _ B).
  - destruct (read n s); [|discriminate]. inversion H; subst t. exact I.
Qed.

Lemma run_app : forall a b s, run (a ++ b) s = match run a s with Some t => run b t | None => None end.
Proof. induction a as [|e a IH]; intros b s; cbn [app run]; [reflexivity|]. destruct (step e s); [apply IH | reflexivity]. Qed.
Lemma run_inv_from : forall es k s t, inv k s -> run es s = Some t -> inv (fold_left note es k) t.
Proof.
  induction es as [|e es IH]; intros k s t I H; cbn [run fold_left] in *; [inversion H; subst; exact I|].
  destruct (step e s) as [u|] eqn:E; [|discriminate]. exact (IH _ _ _ (step_inv _ _ _ _ I E) H).
Qed.
Lemma reach_inv : forall es s, run es store0 = Some s -> inv (knownAfter es) s.
Proof. intros es s H. exact (run_inv_from es _ _ _ inv0 H). Qed.

(** Configured while the queue is made for the present description: the context points at the data. *)
Lemma open_joined : forall k s, inv k s -> joined k = true -> exists t, open s = Some t /\ blocks t = blocks s /\ descs t = descs s /\ cur t = cur s /\ queue t = queue s /\
  match given k with Some x => exists b, ctx t = Some (Some b, length x) /\ at_ b (blocks s) = Some x /\
     (forall c d, cur s = Some c -> at_ c (descs s) = Some d -> extra d = Some b) | None => exists n, ctx t = Some (None, n) end.
Proof.
  intros k s I J. pose proof (i_join k s I) as Jk. rewrite J in Jk. destruct (cur s) as [c|] eqn:C; [|discriminate]. destruct (queue s) as [q|] eqn:Q; [|discriminate].
  symmetry in Jk. apply Nat.eqb_eq in Jk. subst q. destruct (i_cur k s I c C) as [d [D G]]. unfold open. rewrite Q, D. eexists. split; [reflexivity|].
  cbn [blocks descs cur queue ctx]. do 4 (split; [first [reflexivity | assumption]|]).
  destruct (given k) as [x|].
  - destruct G as [b [E [N B]]]. exists b. rewrite E, N. split; [reflexivity|]. split; [exact B|]. intros c2 d2 E2 F. inversion E2; subst c2. rewrite D in F. inversion F; subst d2. exact E.
  - rewrite (proj1 G). eexists. reflexivity.
Qed.
