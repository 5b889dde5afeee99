(* Lemmas on the register of sessions. *)
From Coq Require Import ZArith List Bool Lia.
From Verif Require Import ZMap JsonModel CtlProofs SessModel SessSpec.
Import ListNotations.
Local Open Scope list_scope.
Local Open Scope Z_scope.

Lemma streq_true a b : streq a b = true <-> a = b.
Proof. unfold streq. destruct list_eq_dec; split; congruence. Qed.

Lemma lookup_in id l s : lookup id l = Some s -> In (id, s) l.
Proof.
  induction l as [|[k v] t IH]; cbn [lookup]; [discriminate|].
  destruct (streq k id) eqn:E; intros H.
  - apply streq_true in E. inversion H; subst. left. reflexivity.
  - right. auto.
Qed.
Lemma in_lookup id l s : NoDup (map fst l) -> In (id, s) l -> lookup id l = Some s.
Proof.
  induction l as [|[k v] t IH]; intros N H; [destruct H|].
  cbn [map fst] in N. inversion N as [|? ? N1 N2]; subst. cbn [lookup]. destruct H as [H|H].
  - inversion H; subst. rewrite streq_refl. reflexivity.
  - rewrite streq_neq; [auto|]. intros ->. apply N1. change id with (fst (id, s)). apply in_map. exact H.
Qed.
Lemma lookup_none id l : lookup id l = None <-> ~ In id (map fst l).
Proof.
  induction l as [|[k v] t IH]; cbn [lookup map fst In]; [tauto|].
  destruct (streq k id) eqn:E.
  - apply streq_true in E. split; [discriminate|]. intros N. destruct N. left. exact E.
  - rewrite IH. split; [|tauto]. intros N [H|H]; [|tauto]. subst. rewrite streq_refl in E. discriminate.
Qed.
Lemma without_in id l x : In x (without id l) <-> In x l /\ fst x <> id.
Proof.
  unfold without. rewrite filter_In. split; intros [H1 H2]; (split; [exact H1|]).
  - intros E. subst. rewrite streq_refl in H2. discriminate.
  - rewrite streq_neq by exact H2. reflexivity.
Qed.
Lemma without_nodup id l : NoDup (map fst l) -> NoDup (map fst (without id l)).
Proof.
  induction l as [|[k v] t IH]; intros N; [constructor|].
  cbn [map fst] in N. inversion N as [|? ? N1 N2]; subst.
  unfold without. cbn [filter fst]. destruct (negb (streq k id)); [|apply IH; exact N2].
  cbn [map fst]. constructor; [|apply IH; exact N2].
  intros H. apply N1. apply in_map_iff in H. destruct H as ([k' v'] & E & H). cbn [fst] in E. subst k'.
  apply without_in in H. destruct H as [H _]. change k with (fst (k, v')). apply in_map. exact H.
Qed.
Lemma store_nodup id s l : NoDup (map fst l) -> NoDup (map fst ((id, s) :: without id l)).
Proof.
  intros N. cbn [map fst]. constructor; [|apply without_nodup; exact N].
  intros H. apply in_map_iff in H. destruct H as ([k v] & E & H). cbn [fst] in E. subst.
  apply without_in in H. destruct H as [_ H]. apply H. reflexivity.
Qed.

(* The invariant. *)
Record Inv (r : reg) : Prop := {
  inv_ids : NoDup (map fst (sessions r));
  inv_sorted : msorted (sinks r);
  inv_owned : forall p, InUse r p -> exists id s, SessionOf r id s /\ In p (sports s);
  inv_blank : forall id s, SessionOf r id s -> described s = false -> sports s = []
}.

Lemma initiate_spec ok ps : forall s k b, initiate ok ps s = Some (k, b) -> msorted s ->
  msorted k /\
  (forall p, mfind p k <> None -> mfind p s <> None \/ In p ps) /\
  (forall p e, mfind p s = Some e -> mfind p k = Some e) /\
  (b = true -> NoDup ps /\ forall p, In p ps -> mfind p s = None /\ mfind p k = Some (mkSinkE true false)) /\
  (b = false -> exists p, In p ps /\ (mfind p s <> None \/ ~ NoDup ps)).
Proof.
  induction ps as [|p t IH]; intros s k b H M; cbn [initiate] in H.
  - inversion H; subst. repeat split; auto; try (intros; tauto); try constructor; try discriminate; contradiction.
  - destruct (ok p); [|discriminate]. destruct (mfind p s) eqn:F.
    + inversion H; subst. repeat split; auto; try discriminate.
      intros _. exists p. split; [left; reflexivity|]. left. congruence.
    + apply IH in H; [|apply msorted_mset; exact M]. destruct H as (H1 & H2 & H3 & H4 & H5).
      split; [exact H1|]. split; [|split; [|split]].
      * intros q Hq. apply H2 in Hq. rewrite mfind_mset in Hq. destruct (Z.eqb_spec q p); [subst; right; left; reflexivity|].
        destruct Hq; [left; assumption|right; right; assumption].
      * intros q e Hq. apply H3. rewrite mfind_mset. destruct (Z.eqb_spec q p); [congruence|exact Hq].
      * intros E. destruct (H4 E) as (N & A). split.
        -- constructor; [|exact N]. intros I. apply A in I. destruct I as [I _]. rewrite mfind_mset_eq in I. discriminate.
        -- intros q [Hq|Hq].
           ++ subst q. split; [exact F|]. apply H3. apply mfind_mset_eq.
           ++ destruct (A q Hq) as [A1 A2]. split; [|exact A2]. rewrite mfind_mset in A1.
              destruct (q =? p); [discriminate|exact A1].
      * intros E. destruct (H5 E) as (q & Q1 & Q2). exists q. split; [right; exact Q1|].
        destruct Q2 as [Q2|Q2].
        -- rewrite mfind_mset in Q2. destruct (Z.eqb_spec q p) as [->|]; [|left; exact Q2].
           right. intros N. inversion N; subst. contradiction.
        -- right. intros N. inversion N; subst. contradiction.
Qed.

Lemma setup_spec ps : forall s, msorted s -> msorted (setup ps s) /\
  (forall p, mfind p (setup ps s) <> None -> mfind p s <> None \/ In p ps) /\
  (forall p, ~ In p ps -> mfind p (setup ps s) = mfind p s) /\
  (forall p, In p ps -> mfind p (setup ps s) = Some (mkSinkE true false)).
Proof.
  induction ps as [|p t IH]; intros s M; cbn [setup].
  - repeat split; auto. contradiction.
  - destruct (IH (mset p (mkSinkE true false) s)) as (H1 & H2 & H3 & H4); [apply msorted_mset; exact M|].
    split; [exact H1|]. split; [|split].
    + intros q Hq. apply H2 in Hq. rewrite mfind_mset in Hq. destruct (Z.eqb_spec q p); [subst; right; left; reflexivity|].
      destruct Hq; [left; assumption|right; right; assumption].
    + intros q Hq. rewrite H3 by (intros Q; apply Hq; right; exact Q).
      rewrite mfind_mset_neq; [reflexivity|]. intros ->. apply Hq. left. reflexivity.
    + intros q Hq. destruct (in_dec Z.eq_dec q t) as [Q|Q]; [apply H4; exact Q|].
      destruct Hq as [->|Hq]; [|contradiction]. rewrite H3 by exact Q. apply mfind_mset_eq.
Qed.

Lemma killAll_spec ps : forall s, msorted s -> msorted (killAll ps s) /\
  (forall p, mfind p (killAll ps s) <> None <-> mfind p s <> None) /\
  (forall p, ~ In p ps -> mfind p (killAll ps s) = mfind p s) /\
  (forall p e, In p ps -> mfind p (killAll ps s) = Some e -> alive e = false).
Proof.
  induction ps as [|p t IH]; intros s M; cbn [killAll].
  - repeat split; auto. contradiction.
  - set (s' := match mfind p s with Some e => mset p (mkSinkE false (connected e)) s | None => s end).
    assert (M' : msorted s') by (unfold s'; destruct (mfind p s); [apply msorted_mset; exact M|exact M]).
    assert (F : forall q, q <> p -> mfind q s' = mfind q s).
    { intros q Q. unfold s'. destruct (mfind p s); [apply mfind_mset_neq; exact Q|reflexivity]. }
    assert (G : mfind p s' <> None <-> mfind p s <> None).
    { unfold s'. destruct (mfind p s) eqn:E; [rewrite mfind_mset_eq|rewrite E]; split; congruence. }
    assert (K : forall e, mfind p s' = Some e -> alive e = false).
    { intros e. unfold s'. destruct (mfind p s) eqn:E; [rewrite mfind_mset_eq|rewrite E]; intros X; inversion X; reflexivity. }
    destruct (IH s' M') as (H1 & H2 & H3 & H4). split; [exact H1|]. split; [|split].
    + intros q. rewrite H2. destruct (Z.eq_dec q p) as [->|Q]; [exact G|]. rewrite F by exact Q. reflexivity.
    + intros q Hq. rewrite H3 by (intros Q; apply Hq; right; exact Q). apply F. intros ->. apply Hq. left. reflexivity.
    + intros q e Hq E. destruct (in_dec Z.eq_dec q t) as [Q|Q]; [exact (H4 q e Q E)|].
      destruct Hq as [->|Hq]; [|contradiction]. rewrite H3 in E by exact Q. exact (K e E).
Qed.

Lemma closeAll_spec ps : forall s k, msorted s -> closeAll ps s = Some k ->
  msorted k /\ (forall p, mfind p k = if in_dec Z.eq_dec p ps then None else mfind p s) /\
  (forall p e, In p ps -> mfind p s = Some e -> alive e = true /\ connected e = false).
Proof.
  induction ps as [|p t IH]; intros s k M H; cbn [closeAll] in H.
  - inversion H; subst. repeat split; auto; contradiction.
  - destruct (mfind p s) as [e|] eqn:F.
    + destruct (alive e) eqn:A; [|discriminate]. destruct (connected e) eqn:C; [discriminate|].
      apply IH in H; [|apply msorted_mdel; exact M]. destruct H as (H1 & H2 & H3). split; [exact H1|]. split.
      * intros q. rewrite H2. destruct (in_dec Z.eq_dec q t) as [Q|Q]; destruct (in_dec Z.eq_dec q (p :: t)) as [R|R]; cbn in R; try tauto.
        -- destruct R as [->|R]; [|contradiction]. rewrite mfind_mdel by exact M. rewrite Z.eqb_refl. reflexivity.
        -- rewrite mfind_mdel by exact M. destruct (Z.eqb_spec q p); [subst; tauto|reflexivity].
      * intros q e' Q E'. destruct (Z.eq_dec q p) as [->|N].
        -- rewrite F in E'. inversion E'; subst. tauto.
        -- destruct Q as [Q|Q]; [congruence|]. apply (H3 q e' Q). rewrite mfind_mdel_neq by exact N. exact E'.
    + apply IH in H; [|exact M]. destruct H as (H1 & H2 & H3). split; [exact H1|]. split.
      * intros q. rewrite H2. destruct (in_dec Z.eq_dec q t) as [Q|Q]; destruct (in_dec Z.eq_dec q (p :: t)) as [R|R]; cbn in R; try tauto.
        destruct R as [->|R]; [exact F|contradiction].
      * intros q e' Q E'. destruct Q as [Q|Q]; [congruence|]. exact (H3 q e' Q E').
Qed.
Lemma closeAll_ok ps : forall s, msorted s ->
  (forall p e, In p ps -> mfind p s = Some e -> alive e = true /\ connected e = false) ->
  exists k, closeAll ps s = Some k.
Proof.
  induction ps as [|p t IH]; intros s M H; cbn [closeAll]; [eauto|].
  destruct (mfind p s) as [e|] eqn:F.
  - destruct (H p e) as [A C]; [left; reflexivity|exact F|]. rewrite A, C. cbn iota.
    apply IH; [apply msorted_mdel; exact M|]. intros q e' Q E'. apply (H q e'); [right; exact Q|].
    rewrite mfind_mdel in E' by exact M. destruct (q =? p); [discriminate|exact E'].
  - apply IH; [exact M|]. intros q e' Q E'. apply (H q e'); [right; exact Q|exact E'].
Qed.

Lemma lookup_some_reg id r s : lookup id (sessions r) = Some s -> SessionOf r id s.
Proof. apply lookup_in. Qed.

Lemma owned_store r id s0 ps (k : zmap sinkE) :
  (forall p, InUse r p -> exists i s, SessionOf r i s /\ In p (sports s)) ->
  (forall p, mfind p k <> None -> InUse r p \/ In p ps) ->
  sports s0 = ps ->
  (forall s, SessionOf r id s -> forall p, In p (sports s) -> In p ps) ->
  forall p, mfind p k <> None ->
  exists i s, In (i, s) ((id, s0) :: without id (sessions r)) /\ In p (sports s).
Proof.
  intros O K E P p H. destruct (K p H) as [U|U].
  - destruct (O p U) as (i & s & S1 & S2). destruct (list_eq_dec Ascii.ascii_dec i id) as [->|N].
    + exists id, s0. split; [left; reflexivity|]. rewrite E. exact (P s S1 p S2).
    + exists i, s. split; [|exact S2]. right. apply without_in. split; [exact S1|exact N].
  - exists id, s0. split; [left; reflexivity|]. rewrite E. exact U.
Qed.

Lemma blank_store r id s0 :
  (forall i s, SessionOf r i s -> described s = false -> sports s = []) ->
  (described s0 = false -> sports s0 = []) ->
  forall i s, In (i, s) ((id, s0) :: without id (sessions r)) -> described s = false -> sports s = [].
Proof.
  intros B B0 i s [H|H] D; [inversion H; subst; auto|]. apply without_in in H. destruct H as [H _]. exact (B i s H D).
Qed.

Lemma reg_in r id s : SessionOf r id s -> Registered r id.
Proof. intros H. unfold Registered. change id with (fst (id, s)). apply in_map. exact H. Qed.

Lemma setSink_inv p f r r' b : Inv r -> setSink p f r = Done r' b -> Inv r'.
Proof.
  intros [I1 I2 I3 I4] H. unfold setSink in H. destruct (mfind p (sinks r)) as [e|] eqn:F; inversion H; subst; [|constructor; assumption].
  constructor; cbn [sessions sinks]; [exact I1|apply msorted_mset; exact I2| |exact I4].
  intros q Q. unfold InUse in Q. cbn [sinks] in Q. rewrite mfind_mset in Q. apply I3. unfold InUse.
  destruct (Z.eqb_spec q p); [subst; congruence|exact Q].
Qed.

Lemma step_inv o r r' b : Inv r -> step o r = Done r' b -> Inv r'.
Proof.
  intros I H. pose proof I as [I1 I2 I3 I4].
  destruct o as [id pb ok ps|id made|id ps|id|id|p|p|p]; cbn [step] in H; try (eapply setSink_inv; eassumption).
  - unfold addStreams in H. destruct (lookup id (sessions r)) eqn:L; [inversion H; subst; exact I|].
    destruct pb; [|discriminate]. cbn [store sinks sessions] in H.
    destruct (initiate ok ps (sinks r)) as [[k b0]|] eqn:E; [|discriminate]. inversion H; subst.
    apply initiate_spec in E; [|exact I2]. destruct E as (E1 & E2 & _).
    apply lookup_none in L.
    constructor; cbn [sessions sinks]; [apply store_nodup; exact I1|exact E1| |].
    + intros p P. apply owned_store with (r := r) (ps := ps) (k := k); [exact I3|first [exact E2|intros ? ?; left; assumption]|reflexivity| |exact P].
      intros s S. destruct L. exact (reg_in r id s S).
    + apply (blank_store r); [exact I4|discriminate].
  - unfold addUrl in H. destruct (lookup id (sessions r)) eqn:L; [inversion H; subst; exact I|].
    apply lookup_none in L.
    destruct made; inversion H; subst; [|exact I].
    constructor; cbn [sessions sinks store]; [apply store_nodup; exact I1|exact I2| |].
    + intros p P. apply owned_store with (r := r) (ps := []) (k := sinks r); [exact I3|first [exact E2|intros ? ?; left; assumption]|reflexivity| |exact P].
      intros s S. destruct L. exact (reg_in r id s S).
    + apply (blank_store r); [exact I4|reflexivity].
  - unfold describe in H. destruct (lookup id (sessions r)) as [s|] eqn:L; [|inversion H; subst; exact I].
    destruct (client s) eqn:C; try (inversion H; subst; exact I).
    destruct (described s) eqn:D; [inversion H; subst; exact I|].
    destruct (forallb _ ps) eqn:Fb; [|inversion H; subst; exact I].
    inversion H; subst. cbn [store sessions sinks].
    destruct (setup_spec ps (sinks r) I2) as (E1 & E2 & E3 & E4).
    pose proof (I4 id s (lookup_in _ _ _ L) D) as B.
    constructor; cbn [sessions sinks]; [apply store_nodup; exact I1|exact E1| |].
    + intros p P. apply owned_store with (r := r) (ps := ps) (k := setup ps (sinks r)); [exact I3|first [exact E2|intros ? ?; left; assumption]|reflexivity| |exact P].
      intros s' S q Q. apply in_lookup in S; [|exact I1]. rewrite L in S. inversion S; subst s'. rewrite B in Q. destruct Q.
    + apply (blank_store r); [exact I4|discriminate].
  - unfold shutdown in H. destruct (lookup id (sessions r)) as [s|] eqn:L; [|inversion H; subst; exact I].
    destruct (client s) eqn:C; inversion H; subst; try exact I.
    destruct (killAll_spec (sports s) (sinks r) I2) as (E1 & E2 & E3 & E4).
    constructor; cbn [sessions sinks store]; [apply store_nodup; exact I1|exact E1| |].
    + intros p P. apply owned_store with (r := r) (ps := sports s) (k := killAll (sports s) (sinks r)); [exact I3| |reflexivity| |exact P].
      * intros q Q. left. apply E2. exact Q.
      * intros s' S q Q. apply in_lookup in S; [|exact I1]. rewrite L in S. inversion S; subst s'. exact Q.
    + apply (blank_store r); [exact I4|]. cbn [described sports]. exact (I4 id s (lookup_in _ _ _ L)).
  - unfold removeSession in H. destruct (lookup id (sessions r)) as [s|] eqn:L; [|inversion H; subst; exact I].
    destruct (described s) eqn:D; [|discriminate].
    destruct (closeAll (sports s) (sinks r)) as [k|] eqn:E; [|discriminate].
    apply closeAll_spec in E; [|exact I2]. destruct E as (E1 & E2 & E3).
    assert (r' = mkReg (without id (sessions r)) k).
    { destruct (client s); [destruct (sports s)| |]; inversion H; reflexivity. }
    subst r'.
    constructor; cbn [sessions sinks]; [apply without_nodup; exact I1|exact E1| |].
    + intros p P. unfold InUse in P. cbn [sinks] in P. rewrite E2 in P.
      destruct (in_dec Z.eq_dec p (sports s)) as [Q|Q]; [congruence|].
      destruct (I3 p P) as (i & s' & S1 & S2). exists i, s'. split; [|exact S2].
      apply without_in. split; [exact S1|]. cbn [fst]. intros ->.
      apply in_lookup in S1; [|exact I1]. rewrite L in S1. inversion S1; subst. contradiction.
    + intros i s' S. apply without_in in S. destruct S as [S _]. exact (I4 i s' S).
Qed.

Lemma run_app o1 o2 r : run (o1 ++ o2) r = match run o1 r with Some r' => run o2 r' | None => None end.
Proof.
  revert r. induction o1 as [|o t IH]; intros r; [reflexivity|]. cbn [app run]. destruct (step o r); [apply IH|reflexivity].
Qed.
Lemma run_inv ops : forall r r', Inv r -> run ops r = Some r' -> Inv r'.
Proof.
  induction ops as [|o t IH]; intros r r' I H; cbn [run] in H; [inversion H; subst; exact I|].
  destruct (step o r) as [r1 b|] eqn:E; [|discriminate]. apply (IH r1); [|exact H]. exact (step_inv o r r1 b I E).
Qed.
Lemma inv0 : Inv reg0.
Proof. constructor; cbn; try constructor; intros; contradiction. Qed.
Lemma reachable_inv r : reachable r -> Inv r.
Proof. intros [ops H]. exact (run_inv ops reg0 r inv0 H). Qed.
Lemma reachable_step r o r' b : reachable r -> step o r = Done r' b -> reachable r'.
Proof.
  intros [ops H] E. exists (ops ++ [o]). rewrite run_app, H. cbn [run]. rewrite E. reflexivity.
Qed.
