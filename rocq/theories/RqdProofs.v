(** Proofs for C107. *)
From Coq Require Import Lia ZArith List Bool.
From Verif Require Import Base AnnModel RqdModel RqdSpec.
Import ListNotations.
Local Open Scope list_scope.
Local Open Scope Z_scope.

Lemma get_in {A} p (l : list (Z * A)) a : get p l = Some a -> In (p, a) l.
Proof. induction l as [|(q, b) l IH]; [discriminate|]. cbn [get]. destruct (Z.eqb_spec q p) as [->|]; [intros E; injection E as ->; left; reflexivity|right; auto]. Qed.
Lemma in_get {A} p (l : list (Z * A)) a : In (p, a) l -> exists b, get p l = Some b.
Proof. induction l as [|(q, b) l IH]; [destruct 1|]. cbn [get]. intros [E|E]; [injection E as -> ->; rewrite Z.eqb_refl; eauto|]. destruct (q =? p); eauto. Qed.
Lemma drop_in {A} p (l : list (Z * A)) x : In x (drop p l) -> In x l /\ fst x <> p.
Proof. unfold drop. intros J. apply filter_In in J. destruct J as (J1 & J2). split; [exact J1|]. apply negb_true_iff, Z.eqb_neq in J2. exact J2. Qed.
Lemma drops_in {A B} (l : list (Z * A)) : forall (s : list (Z * B)) x, In x (fold_left (fun a y => drop (fst y) a) l s) -> In x s /\ ~ In (fst x) (map fst l).
Proof.
  induction l as [|y l IH]; intros s x J; cbn [fold_left map] in *; [split; [exact J|auto]|]. destruct (IH _ _ J) as (J1 & J2). apply drop_in in J1. destruct J1 as (J1 & J3).
  split; [exact J1|]. intros [E|E]; [congruence|auto].
Qed.
Lemma insert_in s l t : In t (insert s l) <-> t = s \/ In t l.
Proof.
  induction l as [|u l IH]; cbn [insert]; [cbn [In]; intuition congruence|]. destruct (sName s <? sName u); cbn [In]; [intuition congruence|]. rewrite IH. intuition congruence.
Qed.
Lemma addSinks_in l : forall s x, In x (addSinks l s) -> In x s \/ In x l.
Proof.
  induction l as [|(p, h) l IH]; intros s x J; cbn [addSinks] in J; [auto|]. destruct (get p s); [auto|]. destruct (IH _ _ J) as [[E|E]|E]; [right; left; exact E|auto|right; right; exact E].
Qed.
Lemma byPort_in p l h : byPort p l = Some h -> exists s, In s l /\ In (p, h) (sSubs s).
Proof.
  induction l as [|s l IH]; [discriminate|]. cbn [byPort]. destruct (get p (sSubs s)) eqn:G; [intros E; injection E as ->; exists s; split; [left; reflexivity|apply get_in, G]|].
  intros E. destruct (IH E) as (t & T1 & T2). exists t. split; [right; exact T1|exact T2].
Qed.
Lemma byPort_some p l s h : In s l -> In (p, h) (sSubs s) -> exists h', byPort p l = Some h'.
Proof.
  induction l as [|t l IH]; [destruct 1|]. cbn [byPort]. intros [->|J] K; [destruct (in_get p (sSubs s) h K) as (b & ->); eauto|]. destruct (get p (sSubs t)); eauto.
Qed.

(** Sessions, sinks, what is remembered and outputs come from what was announced. A port with a sink is a session's. *)
Record inv (es : list ev) (w : world) : Prop := {
  i_ses : forall s p h, In s (sessions w) -> In (p, h) (sSubs s) -> announced p es h;
  i_snk : forall p h, In (p, h) (sinks w) -> announced p es h;
  i_own : forall p h, In (p, h) (sinks w) -> exists s h', In s (sessions w) /\ In (p, h') (sSubs s);
  i_nam : forall s t, In s (sessions w) -> In t (sessions w) -> sName s = sName t -> s = t;
  i_inf : forall p i, In (p, i) (infos w) -> exists h, announced p es h /\ createStreamInfo h = i;
  i_out : forall p i, In (p, i) (outs w) -> exists h, announced p es h /\ createStreamInfo h = Some i }.
Lemma announced_app p es fs h : announced p es h -> announced p (es ++ fs) h.
Proof. intros (n & l & A & B). exists n, l. split; [apply in_or_app; left; exact A|exact B]. Qed.
Lemma inv_app es fs w : inv es w -> inv (es ++ fs) w.
Proof.
  intros I. split; intros.
  - eapply announced_app, i_ses; eauto.
  - eapply announced_app, i_snk; eauto.
  - eapply i_own; eauto.
  - eapply i_nam; eauto.
  - destruct (i_inf es w I p i H) as (h & A & B). exists h. split; [apply announced_app, A|exact B].
  - destruct (i_out es w I p i H) as (h & A & B). exists h. split; [apply announced_app, A|exact B].
Qed.
Lemma infoOf_spec es w p i m : inv es w -> infoOf p w = (i, m) ->
  (forall q j, In (q, j) m -> exists h, announced q es h /\ createStreamInfo h = j) /\ (forall j, i = Some j -> exists h, announced p es h /\ createStreamInfo h = Some j).
Proof.
  intros I. unfold infoOf. destruct (get p (infos w)) eqn:G.
  - intros E. injection E as <- <-. split; [exact (i_inf es w I)|]. intros j ->. exact (i_inf es w I p _ (get_in _ _ _ G)).
  - destruct (byPort p (sessions w)) as [h|] eqn:B; intros E; injection E as <- <-.
    + destruct (byPort_in p _ h B) as (s & S1 & S2). pose proof (i_ses es w I s p h S1 S2) as X. split; [|eauto]. intros q j [E|J]; [injection E as <- <-; eauto|exact (i_inf es w I q j J)].
    + split; [exact (i_inf es w I)|discriminate].
Qed.
Lemma step_inv es w e w' : inv es w -> step e w = Some w' -> inv (es ++ [e]) w'.
Proof.
  intros I0 E. pose proof (inv_app es [e] w I0) as I. destruct e as [n l|n|p|p]; cbn [step] in E.
  - injection E as <-. unfold addSession. destruct (existsb (fun s => sName s =? n) (sessions w)) eqn:X; [exact I|].
    assert (X' : forall s, In s (sessions w) -> sName s <> n). { intros s S Y. apply not_true_iff_false in X. apply X, existsb_exists. exists s. split; [exact S|apply Z.eqb_eq, Y]. }
    assert (A : forall p h, In (p, h) l -> announced p (es ++ [AddS n l]) h).
    { intros p h J. exists n, l. split; [apply in_or_app; right; left; reflexivity|exact J]. }
    split; cbn [sessions sinks infos outs]; [..|exact (i_inf _ _ I)|exact (i_out _ _ I)].
    + intros s p h J K. apply insert_in in J. destruct J as [->|J]; [apply A, K|exact (i_ses _ _ I s p h J K)].
    + intros p h J. destruct (addSinks_in _ _ _ J) as [K|K]; [exact (i_snk _ _ I p h K)|apply A, K].
    + intros p h J. destruct (addSinks_in _ _ _ J) as [K|K].
      * destruct (i_own _ _ I p h K) as (s & h' & S1 & S2). exists s, h'. split; [apply insert_in; right; exact S1|exact S2].
      * exists (mkSe n l), h. split; [apply insert_in; left; reflexivity|exact K].
    + intros s t S T N. apply insert_in in S. apply insert_in in T. destruct S as [->|S], T as [->|T]; [reflexivity|..|exact (i_nam _ _ I s t S T N)]; cbn [sName] in N; exfalso; [apply (X' t T)|apply (X' s S)]; auto.
  - unfold removeSession in E. destruct (filter (fun s => sName s =? n) (sessions w)) as [|s r] eqn:F; [injection E as <-; exact I|].
    destruct (existsb _ (sSubs s)); [discriminate|]. injection E as <-.
    split; cbn [sessions sinks infos outs]; [..|exact (i_inf _ _ I)|exact (i_out _ _ I)].
    + intros t p h J. apply filter_In in J. apply (i_ses _ _ I t p h (proj1 J)).
    + intros p h J. apply drops_in in J. exact (i_snk _ _ I p h (proj1 J)).
    + intros p h J. apply drops_in in J. destruct J as (J1 & J2). destruct (i_own _ _ I p h J1) as (t & h' & T1 & T2). exists t, h'. split; [|exact T2].
      apply filter_In. split; [exact T1|]. apply negb_true_iff, Z.eqb_neq. intros N. assert (S : In s (sessions w) /\ (sName s =? n) = true). { apply (proj1 (filter_In (fun s => sName s =? n) s (sessions w))). rewrite F. left. reflexivity. }
      destruct S as (S1 & S2). apply Z.eqb_eq in S2. assert (t = s) by (apply (i_nam _ _ I); [exact T1|exact S1|congruence]). subst t. apply J2. cbn [fst]. change p with (fst (p, h')). apply in_map, T2.
    + intros t u T U. apply filter_In in T. apply filter_In in U. apply (i_nam _ _ I); [apply T|apply U].
  - injection E as <-. unfold connect. destruct (get p (outs w)); [exact I|]. destruct (get p (sinks w)); [|exact I]. destruct (infoOf p w) as [i m] eqn:F.
    destruct (infoOf_spec _ w p i m I F) as (M & N).
    destruct i as [i|]; [destruct (queueMade i)|]; cbn [fst]; (split; cbn [sessions sinks infos outs]; [exact (i_ses _ _ I)|exact (i_snk _ _ I)|exact (i_own _ _ I)|exact (i_nam _ _ I)|exact M|]).
    + intros q j [K|K]; [injection K as <- <-; exact (N i eq_refl)|exact (i_out _ _ I q j K)].
    + exact (i_out _ _ I).
    + exact (i_out _ _ I).
  - injection E as <-. split; cbn [disconnect sessions sinks infos outs]; [exact (i_ses _ _ I)|exact (i_snk _ _ I)|exact (i_own _ _ I)|exact (i_nam _ _ I)|exact (i_inf _ _ I)|].
    intros q j K. apply drop_in in K. exact (i_out _ _ I q j (proj1 K)).
Qed.
Lemma run_inv fs : forall es w w', inv es w -> run fs w = Some w' -> inv (es ++ fs) w'.
Proof.
  induction fs as [|e fs IH]; intros es w w' I R; cbn [run] in R; [injection R as <-; rewrite app_nil_r; exact I|].
  destruct (step e w) as [w1|] eqn:S; [|discriminate]. change (es ++ e :: fs) with (es ++ [e] ++ fs). rewrite app_assoc. apply (IH _ w1); [exact (step_inv es w e w1 I S)|exact R].
Qed.
Lemma inv0 : inv [] world0.
Proof. split; cbn [world0 sessions sinks infos outs]; contradiction. Qed.
Lemma reach_inv es w : run es world0 = Some w -> inv es w.
Proof. intros R. exact (run_inv es [] world0 w inv0 R). Qed.

Lemma connect_madeFor w p h : get p (outs w) = None -> get p (sinks w) <> None -> fst (infoOf p w) = createStreamInfo h -> madeFor (snd (connect p w)) h.
Proof.
  intros O S F. unfold connect, madeFor. rewrite O. destruct (get p (sinks w)); [|congruence]. destruct (infoOf p w) as [i m]. cbn [fst] in F. rewrite F.
  destruct (createStreamInfo h) as [j|]; [|reflexivity]. destruct (queueMade j); reflexivity.
Qed.
(** What is remembered for a port, as long as nobody asked. *)
Lemma step_infos e w w' p : step e w = Some w' -> e <> Connect p -> get p (infos w) = None -> get p (infos w') = None.
Proof.
  intros E N G. destruct e as [n l|n|q|q]; cbn [step] in E.
  - injection E as <-. unfold addSession. destruct (existsb _ _); exact G.
  - unfold removeSession in E. destruct (filter _ (sessions w)) as [|s r]; [injection E as <-; exact G|]. destruct (existsb _ (sSubs s)); [discriminate|]. injection E as <-. exact G.
  - injection E as <-. unfold connect. destruct (get q (outs w)); [exact G|]. destruct (get q (sinks w)) as [hs|]; [|exact G]. unfold infoOf.
    assert (Q : q <> p) by congruence. apply Z.eqb_neq in Q.
    destruct (get q (infos w)) as [[i|]|]; [destruct (queueMade i); exact G|exact G|]. destruct (byPort q (sessions w)) as [h|]; [|exact G].
    destruct (createStreamInfo h) as [i|]; [destruct (queueMade i)|]; cbn [fst infos get]; rewrite Q; exact G.
  - injection E as <-. exact G.
Qed.
Lemma run_infos es p : forall w w', run es w = Some w' -> ~ In (Connect p) es -> get p (infos w) = None -> get p (infos w') = None.
Proof.
  induction es as [|e es IH]; intros w w' R N G; cbn [run] in R; [injection R as <-; exact G|]. destruct (step e w) as [w1|] eqn:S; [|discriminate].
  apply (IH w1); [exact R|intros J; apply N; right; exact J|]. apply (step_infos e w w1 p S); [intros ->; apply N; left; reflexivity|exact G].
Qed.
