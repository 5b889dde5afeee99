From Verif Require Import Base EventModel EventSpec.
From Coq Require Import Permutation.

Lemma sent_snoc tr o x : sent (tr ++ [(o, x)]) = sent tr ++ match o with Push e => [e] | _ => [] end.
Proof. unfold sent. rewrite flat_map_app. cbn. rewrite app_nil_r. destruct o; reflexivity. Qed.
Lemma taken_snoc tr o x : taken (tr ++ [(o, x)]) = taken tr ++ match x with Executed e | Dropped e => [e] | _ => [] end.
Proof. unfold taken. rewrite flat_map_app. cbn. rewrite app_nil_r. destruct x; reflexivity. Qed.

Lemma remove_at_perm (q : list event) pos e : nth_error q pos = Some e -> Permutation q (e :: remove_at q pos).
Proof.
  revert pos; induction q as [|h t IH]; intros [|pos] H; cbn in H; try discriminate.
  - inversion H; subst. apply Permutation_refl.
  - specialize (IH pos H). unfold remove_at in *. cbn.
    rewrite IH at 1. apply perm_swap.
Qed.

Lemma estep_taken q o q' x : estep q o = Some (q', x) ->
  Permutation (q ++ match o with Push e => [e] | _ => [] end)
              (match x with Executed e | Dropped e => [e] | _ => [] end ++ q').
Proof.
  intros H. destruct o as [e|pos now]; cbn [estep] in H.
  - inversion H; subst. apply Permutation_refl.
  - rewrite app_nil_r. destruct q as [|h t]; [inversion H; subst; apply Permutation_refl|].
    set (q := h :: t) in *. destruct (is_top q pos); [|discriminate].
    destruct (nth_error q pos) as [e|] eqn:En; [|discriminate].
    destruct (canBeExecuted e now).
    + inversion H; subst. destruct (eknown e); apply (remove_at_perm q pos e En).
    + inversion H; subst. apply Permutation_refl.
Qed.

Lemma conserve q tr : erun q tr -> Permutation (sent tr) (taken tr ++ q).
Proof.
  induction 1 as [|q tr o q' x HR IH H]; [apply Permutation_refl|].
  rewrite sent_snoc, taken_snoc. rewrite <- app_assoc. rewrite <- (estep_taken q o q' x H).
  rewrite IH. rewrite <- app_assoc. apply Permutation_refl.
Qed.

Lemma taken_due q tr : erun q tr -> forall pre o x post e, tr = pre ++ (o, x) :: post ->
  x = Executed e \/ x = Dropped e ->
  (exists pos now, o = Round pos now /\ edelay e <= (now - estamp e) ÷ 1000000)%Z /\
  (exists q0, erun q0 pre /\ In e q0 /\ forall y, In y q0 -> (estamp e <= estamp y)%Z) /\
  (x = Executed e -> eknown e = true).
Proof.
  intros HR. induction HR as [|q tr o q' x HR IH H]; intros pre o0 x0 post e E Hx.
  - destruct pre; discriminate.
  - destruct post as [|z post'] using rev_ind.
    + apply app_inj_tail in E. destruct E as [E1 E2]. inversion E2; subst; clear E2 IH.
      destruct o0 as [ev|pos now]; cbn [estep] in H; [inversion H; subst; destruct Hx; discriminate|].
      destruct q as [|h t]; [inversion H; subst; destruct Hx; discriminate|].
      set (q := h :: t) in *. destruct (is_top q pos) eqn:Et; [|discriminate].
      destruct (nth_error q pos) as [e1|] eqn:En; [|discriminate].
      destruct (canBeExecuted e1 now) eqn:Ec; [|inversion H; subst; destruct Hx; discriminate].
      assert (e1 = e). { inversion H; subst. destruct (eknown e1); destruct Hx as [Hx|Hx]; inversion Hx; reflexivity. }
      subst e1. split; [|split].
      * exists pos, now. split; [reflexivity|]. apply Z.leb_le. exact Ec.
      * exists q. split; [exact HR|]. split; [apply (nth_error_In _ _ En)|].
        unfold is_top in Et. rewrite En in Et. rewrite forallb_forall in Et. intros y Hy. specialize (Et y Hy).
        unfold ev_less in Et. apply negb_true_iff in Et. rewrite Z.gtb_ltb in Et. apply Z.ltb_ge in Et. exact Et.
      * intros E. inversion H; subst. destruct (eknown e); [reflexivity|discriminate].
    + clear IHpost'. rewrite app_comm_cons, app_assoc in E. apply app_inj_tail in E. destruct E as [E1 E2].
      apply (IH pre o0 x0 post' e E1 Hx).
Qed.

Lemma quot_elapsed now st d : (0 < d -> d <= (now - st) ÷ 1000000 -> st + d * 1000000 <= now)%Z.
Proof.
  intros Hd H. destruct (Z.neg_nonneg_cases (now - st)) as [Hn|Hn].
  - assert ((now - st) ÷ 1000000 <= 0)%Z by (apply Z.quot_le_upper_bound; lia). lia.
  - rewrite Z.quot_div_nonneg in H by lia. pose proof (Z.mul_div_le (now - st) 1000000). lia.
Qed.
Lemma quot_early now st : (0 <= (now - st) ÷ 1000000 -> st - 1000000 < now)%Z.
Proof.
  intros H. destruct (Z.neg_nonneg_cases (now - st)) as [Hn|Hn]; [|lia].
  replace (now - st)%Z with (- (st - now))%Z in H by lia. rewrite Z.quot_opp_l in H by lia.
  rewrite Z.quot_div_nonneg in H by lia.
  assert ((st - now) / 1000000 = 0)%Z by (assert (0 <= (st - now) / 1000000)%Z by (apply Z.div_pos; lia); lia).
  apply Z.div_small_iff in H0; lia.
Qed.

Lemma due_executes q pos now e : is_top q pos = true -> nth_error q pos = Some e ->
  canBeExecuted e now = true -> estep q (Round pos now) = Some (remove_at q pos, if eknown e then Executed e else Dropped e).
Proof.
  intros Ht Hn Hc. cbn [estep]. destruct q as [|h t]; [destruct pos; discriminate|].
  rewrite Ht, Hn, Hc. reflexivity.
Qed.

Lemma top_exists (q : list event) : q <> [] -> exists pos, is_top q pos = true.
Proof.
  intros Hq. assert (H : exists e, In e q /\ forall y, In y q -> (estamp e <= estamp y)%Z).
  { induction q as [|a t IH]; [congruence|]. destruct t as [|b t'].
    - exists a. split; [left; reflexivity|]. intros y [E|[]]. subst. lia.
    - destruct IH as (e & He & Hm); [discriminate|].
      destruct (Z.leb_spec (estamp a) (estamp e)) as [L|L].
      + exists a. split; [left; reflexivity|]. intros y [E|Hy]; [subst; lia|]. specialize (Hm y Hy). lia.
      + exists e. split; [right; exact He|]. intros y [E|Hy]; [subst; lia|]. apply Hm, Hy. }
  destruct H as (e & He & Hm). apply In_nth_error in He. destruct He as (pos & Hp). exists pos.
  unfold is_top. rewrite Hp. apply forallb_forall. intros y Hy. apply Hm in Hy. unfold ev_less.
  apply negb_true_iff. rewrite Z.gtb_ltb. apply Z.ltb_ge. exact Hy.
Qed.

(** Commands all queued before the first round: they run in time order. *)
Lemma rounds_sorted q tr : erun q tr -> forall pre post, tr = pre ++ post ->
  (forall e x, ~ In (Push e, x) post) -> by_time (taken post) /\
  (taken post = [] \/ forall y, In y q -> forall e, In e (taken post) -> (estamp e <= estamp y)%Z).
Proof.
  induction 1 as [|q tr o q' x HR IH H]; intros pre post E Hp.
  - destruct pre; [|discriminate]. cbn in E. subst. cbn. auto.
  - destruct post as [|z post] using rev_ind; [cbn; auto|]. clear IHpost.
    rewrite app_assoc in E. apply app_inj_tail in E. destruct E as [E1 E2]. subst z.
    destruct (IH pre post E1) as [IH1 IH2].
    { intros e y Hi. apply (Hp e y). apply in_or_app. auto. }
    rewrite taken_snoc.
    destruct o as [e|pos now]; [exfalso; apply (Hp e x); apply in_or_app; right; left; reflexivity|].
    cbn [estep] in H. destruct q as [|h t]; [inversion H; subst; rewrite app_nil_r; auto|].
    set (qq := h :: t) in *. destruct (is_top qq pos) eqn:Et; [|discriminate].
    destruct (nth_error qq pos) as [e|] eqn:En; [|discriminate].
    destruct (canBeExecuted e now) eqn:Ec; [|inversion H; subst; rewrite app_nil_r; auto].
    assert (Hx : match x with Executed e0 | Dropped e0 => [e0] | _ => [] end = [e])
      by (inversion H; destruct (eknown e); reflexivity).
    assert (Hq : q' = remove_at qq pos) by (inversion H; reflexivity). rewrite Hx. subst q'.
    assert (Hin : In e qq) by apply (nth_error_In _ _ En).
    assert (Hsub : forall y, In y (remove_at qq pos) -> In y qq).
    { intros y Hy. eapply Permutation_in; [symmetry; apply (remove_at_perm qq pos e En)|]. right. exact Hy. }
    assert (Htop : forall y, In y qq -> (estamp e <= estamp y)%Z).
    { unfold is_top in Et. rewrite En in Et. rewrite forallb_forall in Et. intros y Hy. specialize (Et y Hy).
      unfold ev_less in Et. apply negb_true_iff in Et. rewrite Z.gtb_ltb in Et. apply Z.ltb_ge in Et. exact Et. }
    destruct IH2 as [Hnil|Hall].
    + rewrite Hnil. cbn. split; [exact I|]. right. intros y Hy a [Ea|[]]. subst a. apply Htop, Hsub, Hy.
    + split.
      * clear -IH1 Hall Hin. induction (taken post) as [|a l IHl]; cbn; [exact I|].
        destruct l as [|b l]; cbn.
        -- split; [|exact I]. apply (Hall e Hin a). left. reflexivity.
        -- cbn in IH1. destruct IH1 as [A B]. split; [exact A|]. apply IHl; [exact B|].
           intros y Hy c Hc. apply (Hall y Hy c). right. exact Hc.
      * right. intros y Hy a Ha. apply in_app_or in Ha. destruct Ha as [Ha|[Ha|[]]].
        -- apply (Hall y (Hsub y Hy) a Ha).
        -- subst a. apply Htop, Hsub, Hy.
Qed.
