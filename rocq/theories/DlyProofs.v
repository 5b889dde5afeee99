From Verif Require Import Base DlyModel DlySpec.
Local Open Scope list_scope.
Local Open Scope Z_scope.

Lemma total_app a b : total (a ++ b) = total a + total b.
Proof. unfold total. rewrite map_app. induction (map snd a) as [|x l IH]; cbn; [reflexivity|]. unfold total in *. cbn in IH. lia. Qed.

(** The state after the frames, relative to the window it is in. *)
Definition inWindow (start : Z) (cur : list (Z * Z)) (s : stats) : Prop :=
  delay s = total cur /\ frameCounter s = Z.of_nat (length cur) /\ timeCounter s = lastTs s - start /\ 0 <= lastTs s.
Definition wmean (w : list (Z * Z)) : Z := s64 (u64 (total w) / u64 (Z.of_nat (length w))).

Lemma measure_windows W fs : forall start cur s, 0 < W -> inWindow start cur s -> (cur = [] -> lastTs s = start) -> Forall (fun f => 0 <= fst f) fs ->
  let r := windows W start cur (distinct (lastTs s) fs) in
  avgDelay (measureAll W fs s) = last (map wmean (fst r)) (avgDelay s) /\
  inWindow (fst (snd r)) (snd (snd r)) (measureAll W fs s).
Proof.
  induction fs as [|[t d] fs IH]; intros start cur s HW (I1 & I2 & I3 & I4) IC F; [cbn; repeat split; assumption|].
  apply Forall_cons_iff in F. destruct F as [F1 F]. cbn [fst] in F1. cbn [measureAll fold_left fst snd distinct]. fold (measureAll W fs (measureDelay W t d s)).
  destruct (Z.eqb_spec t (lastTs s)) as [E|N].
  - assert (X : measureDelay W t d s = s).
    { unfold measureDelay. destruct (Z.ltb_spec (lastTs s) 0); [lia|]. rewrite <- E, Z.eqb_refl. rewrite E. destruct s; reflexivity. }
    rewrite X. apply IH; try assumption. repeat split; assumption.
  - unfold measureDelay. destruct (Z.ltb_spec (lastTs s) 0); [lia|]. destruct (Z.eqb_spec (lastTs s) t); [congruence|].
    cbn [windows fst]. rewrite I2, I3. destruct cur as [|c cur].
    + cbn [length]. change (0 <? Z.of_nat 0) with false. rewrite andb_false_r.
      match goal with |- context [measureAll W fs ?x] => pose proof (IH start [(t, d)] x HW) as IH' end.
      cbn [lastTs avgDelay] in IH'. apply IH'; [|discriminate|exact F].
      unfold inWindow. cbn [delay frameCounter timeCounter lastTs length]. rewrite I1. unfold total. cbn. repeat split; lia.
    + destruct (Z.ltb_spec 0 (Z.of_nat (length (c :: cur)))) as [_|X]; [|cbn [length] in X; lia]. rewrite andb_true_r.
      replace (lastTs s - start + (t - lastTs s)) with (t - start) by lia. destruct (Z.leb_spec W (t - start)).
      * match goal with |- context [measureAll W fs ?x] => pose proof (IH t [(t, d)] x HW) as IH' end. cbn [lastTs avgDelay] in IH'.
        destruct (windows W t [(t, d)] (distinct t fs)) as [ws [st cu]]. cbn [fst snd] in *. destruct IH' as [A B]; [|discriminate|exact F|].
        { unfold inWindow. cbn [delay frameCounter timeCounter lastTs length]. unfold total. cbn. repeat split; lia. }
        split; [|exact B]. rewrite A. cbn [map]. change (s64 (u64 (delay s) / u64 (Z.of_nat (length (c :: cur))))) with (s64 (u64 (delay s) / u64 (Z.of_nat (length (c :: cur))))).
        rewrite I1. fold (wmean (c :: cur)). destruct (map wmean ws) as [|y l]; [reflexivity|]. cbn [last].
        clear. revert y. induction l as [|z l IHl]; intros y; [reflexivity|]. cbn [last] in *. apply IHl.
      * match goal with |- context [measureAll W fs ?x] => pose proof (IH start ((c :: cur) ++ [(t, d)]) x HW) as IH' end. cbn [lastTs avgDelay] in IH'.
        apply IH'; [|intros X; destruct cur; discriminate X|exact F].
        unfold inWindow. cbn [delay frameCounter timeCounter lastTs]. rewrite total_app, app_length. rewrite I1. unfold total at 3. cbn [map snd fold_right length]. repeat split; lia.
Qed.
Lemma wmean_mean w : w <> [] -> 0 <= total w < 2 ^ 63 -> Z.of_nat (length w) < 2 ^ 63 -> wmean w = mean w.
Proof.
  intros N T L. assert (P : 1 <= Z.of_nat (length w)) by (destruct w; [congruence|cbn [length]; lia]).
  unfold wmean, mean, u64. rewrite !Z.mod_small by lia.
  assert (Q : 0 <= total w / Z.of_nat (length w) <= total w) by (split; [apply Z.div_pos; lia|apply Z.div_le_upper_bound; nia]).
  unfold s64. rewrite Z.mod_small by lia. lia.
Qed.
Lemma windows_nonempty W fs : forall start cur w, In w (fst (windows W start cur fs)) -> w <> [].
Proof.
  induction fs as [|f fs IH]; intros start cur w H; [destruct H|]. cbn [windows] in H. destruct cur as [|c cur]; [eapply IH, H|].
  destruct (W <=? fst f - start).
  - pose proof (IH (fst f) [f] w) as IH'. destruct (windows W (fst f) [f] fs) as [ws c']. cbn [fst] in *. destruct H as [<-|H]; [discriminate|auto].
  - eapply IH, H.
Qed.
(** Windows cut the frames, in order. *)
Lemma windows_concat W fs : forall start cur, let r := windows W start cur fs in concat (fst r) ++ snd (snd r) = cur ++ fs.
Proof.
  induction fs as [|f fs IH]; intros start cur; [cbn; rewrite app_nil_r; reflexivity|]. cbn [windows]. destruct cur as [|c cur]; [apply IH|].
  destruct (W <=? fst f - start).
  - specialize (IH (fst f) [f]). destruct (windows W (fst f) [f] fs) as [ws c']. cbn [fst snd concat] in *. rewrite <- app_assoc, IH. reflexivity.
  - cbv zeta. rewrite (IH start ((c :: cur) ++ [f])). rewrite <- app_assoc. reflexivity.
Qed.
Lemma distinct_sub fs : forall p f, In f (distinct p fs) -> In f fs.
Proof. induction fs as [|x fs IH]; intros p f H; [destruct H|]. cbn [distinct] in H. destruct (fst x =? p); [right; eapply IH, H|destruct H as [<-|H]; [left; reflexivity|right; eapply IH, H]]. Qed.
Lemma total_bound a b w : Forall (fun f => a <= snd f <= b) w -> a * Z.of_nat (length w) <= total w <= b * Z.of_nat (length w).
Proof. induction 1 as [|[t d] w H F IH]; unfold total in *; cbn [map fold_right length snd] in *; lia. Qed.
Lemma mean_bound a b w : w <> [] -> Forall (fun f => a <= snd f <= b) w -> a <= mean w <= b.
Proof.
  intros N F. pose proof (total_bound a b w F). assert (P : 1 <= Z.of_nat (length w)) by (destruct w; [congruence|cbn [length]; lia]).
  unfold mean. split; [apply Z.div_le_lower_bound; lia|]. apply Z.div_le_upper_bound; lia.
Qed.
Lemma last_some {A} (l : list A) d : l = [] \/ exists l' x, l = l' ++ [x] /\ last l d = x.
Proof. destruct l as [|a l] using rev_ind; [left; reflexivity|]. right. exists l, a. split; [reflexivity|]. apply last_last. Qed.

(** Paced frames: how old the last ended window can be. *)
Lemma paced_distinct G fs : forall p, paced G p fs -> paced G p (distinct p fs).
Proof.
  induction fs as [|f fs IH]; intros p H; [exact H|]. cbn [paced] in H. destruct H as [H1 H2]. cbn [distinct]. destruct (Z.eqb_spec (fst f) p) as [E|E].
  - apply IH. rewrite E in H2. exact H2.
  - cbn [paced]. split; [exact H1|apply IH, H2].
Qed.
Lemma paced_ge G fs : forall p f, paced G p fs -> In f fs -> p <= fst f.
Proof. induction fs as [|x fs IH]; intros p f H I; [destruct I|]. destruct H as [H1 H2]. destruct I as [<-|I]; [lia|]. specialize (IH _ _ H2 I). lia. Qed.
Lemma windows_fresh W G fs : forall start cur p, 0 < W -> 0 <= G -> paced G p fs -> start <= p < start + W -> Forall (fun f => start <= fst f <= p) cur -> (cur = [] -> p = start /\ G < W) ->
  let r := windows W start cur fs in
  fst r <> [] -> forall f, In f (last (fst r) []) -> last (map fst fs) p - fst f < 2 * W + G.
Proof.
  induction fs as [|f fs IH]; intros start cur p HW HG P S C E r N; [exfalso; apply N; reflexivity|].
  destruct P as [P1 P2]. assert (LM : last (map fst (f :: fs)) p = last (map fst fs) (fst f)).
  { cbn [map]. destruct fs as [|y l]; [reflexivity|]. cbn [map last]. clear. revert y. induction l as [|z l IHl]; intros y; [reflexivity|]. cbn [map] in *. apply IHl. }
  rewrite LM. unfold r in *. cbn [windows] in *. destruct cur as [|c cur].
  - destruct (E eq_refl) as [E1 E2]. apply (IH start [f] (fst f)); try assumption; [lia|constructor; [lia|constructor]|discriminate].
  - destruct (Z.leb_spec W (fst f - start)) as [L|L].
    + pose proof (IH (fst f) [f] (fst f) HW HG P2 ltac:(lia) ltac:(constructor; [lia|constructor]) ltac:(discriminate)) as IH'.
      assert (NW : forall fs st cu p, paced G p fs -> cu <> [] -> st <= p < st + W -> fst (windows W st cu fs) = [] -> last (map fst fs) p < st + W).
      { clear. induction fs as [|x fs IHf]; intros st cu p P NC S Z0; [cbn; lia|]. destruct P as [P1 P2]. cbn [windows] in Z0. destruct cu as [|c cu]; [congruence|].
        destruct (Z.leb_spec W (fst x - st)) as [L|L]; [destruct (windows W (fst x) [x] fs); discriminate|].
        specialize (IHf st ((c :: cu) ++ [x]) (fst x) P2 ltac:(destruct cu; discriminate) ltac:(lia) Z0).
        cbn [map]. destruct fs as [|y l]; [cbn in *; lia|]. cbn [map last] in *. clear - IHf. revert y IHf. induction l as [|z l IHl]; intros y IHf; [exact IHf|]. cbn [map] in *. apply IHl, IHf. }
      specialize (NW fs (fst f) [f] (fst f) P2 ltac:(discriminate) ltac:(lia)).
      destruct (windows W (fst f) [f] fs) as [ws cc]. cbn [fst] in *. intros g I. destruct ws as [|w ws].
      * specialize (NW eq_refl). cbn [last] in I. rewrite Forall_forall in C. specialize (C g I). lia.
      * apply IH'; [discriminate|]. exact I.
    + apply (IH start ((c :: cur) ++ [f]) (fst f)); try assumption; [lia| |intros X; destruct cur; discriminate X].
      apply Forall_app. split; [eapply Forall_impl; [|exact C]; intros g Hg; cbv beta in *; lia|]. constructor; [lia|constructor].
Qed.
