(** Proofs for C66. *)
From Verif Require Import Base ZMap TxModel TxSpec TxProofs RndModel RndSpec.
Local Open Scope list_scope.
Local Open Scope Z_scope.

(** *** One source *)
Lemma frame_kept k o q : match o with QAsk | QTrigger | QStop => True | _ => False end ->
  qframe (snd (qstep k o q)) = qframe q.
Proof. destruct q as [f p s a]. destruct o; cbn; try contradiction; intros _; destruct f, p, a, k; reflexivity. Qed.

Definition ready (q : qsource) : bool := processed q || stopped q.
Definition quiet (o : qop) : Prop := match o with QAsk | QTrigger | QStop => True | _ => False end.

Lemma qrun_app k a b q : qrun k (a ++ b) q =
  let '(e, q1) := qrun k a q in let '(f, q2) := qrun k b q1 in (e ++ f, q2).
Proof.
  revert q. induction a as [|o a IH]; intros q; cbn [qrun app]; [destruct (qrun k b q); reflexivity|].
  destruct (qstep k o q) as [e q1]. rewrite IH. destruct (qrun k a q1) as [f q2]. destruct (qrun k b q2). rewrite app_assoc. reflexivity.
Qed.
Lemma qrun_frame k os : forall q, Forall quiet os -> qframe (snd (qrun k os q)) = qframe q.
Proof.
  induction os as [|o os IH]; intros q F; cbn [qrun]; [reflexivity|]. inversion F; subst.
  pose proof (frame_kept k o q H1) as E. destruct (qstep k o q) as [e q1]. cbn [snd] in E. specialize (IH q1 H2).
  destruct (qrun k os q1). cbn [snd] in *. congruence.
Qed.
Lemma quiet_events k os : forall q, Forall quiet os -> takenIn (fst (qrun k os q)) = [] /\ collectedIn (fst (qrun k os q)) = [].
Proof.
  induction os as [|o os IH]; intros q F; cbn [qrun]; [split; reflexivity|]. inversion F; subst.
  assert (E : takenIn (fst (qstep k o q)) = [] /\ collectedIn (fst (qstep k o q)) = []).
  { destruct q as [f p s a]. destruct o; cbn in *; try contradiction; destruct f, p, a, k; split; reflexivity. }
  destruct (qstep k o q) as [e q1]. specialize (IH q1 H2). destruct (qrun k os q1). cbn [fst] in *.
  rewrite takenIn_app, collectedIn_app. destruct E as [-> ->]. destruct IH as [-> ->]. split; reflexivity.
Qed.
(** A source with a frame that is ready stays ready. *)
Lemma ready_kept k os : forall q, Forall quiet os -> qframe q <> None -> ready q = true -> ready (snd (qrun k os q)) = true.
Proof.
  induction os as [|o os IH]; intros q F H R; cbn [qrun]; [exact R|]. inversion F; subst.
  assert (E : ready (snd (qstep k o q)) = true /\ qframe (snd (qstep k o q)) <> None).
  { rewrite (frame_kept k o q H2). split; [|exact H]. destruct q as [f p s a]. unfold ready in *. cbn in *.
    destruct o; cbn in *; try contradiction; destruct f as [i|]; [|congruence| |congruence| |congruence];
      destruct p, s, a, k; cbn in *; auto. }
  destruct (qstep k o q) as [e q1]. cbn [snd] in E. destruct E as [E1 E2]. specialize (IH q1 H3 E2 E1). destruct (qrun k os q1). exact IH.
Qed.
Lemma ask_ready k os : forall q, Forall quiet os -> qframe q <> None -> In QAsk os \/ In QStop os -> ready (snd (qrun k os q)) = true.
Proof.
  induction os as [|o os IH]; intros q F H I; [destruct I as [[]|[]]|]. inversion F; subst.
  destruct (ready (snd (qstep k o q))) eqn:R.
  - cbn [qrun]. pose proof (frame_kept k o q H2) as E. destruct (qstep k o q) as [e q1]. cbn [snd] in *.
    pose proof (ready_kept k os q1 H3 ltac:(congruence) R) as X. destruct (qrun k os q1). exact X.
  - assert (N : In QAsk os \/ In QStop os).
    { destruct I as [[-> | I]|[-> | I]]; auto; exfalso; destruct q as [f p s a]; unfold ready in R; cbn in *;
        destruct f as [i|]; try congruence; destruct p, k; cbn in R; discriminate. }
    cbn [qrun]. pose proof (frame_kept k o q H2) as E. destruct (qstep k o q) as [e q1]. cbn [snd] in *.
    specialize (IH q1 H3 ltac:(congruence) N). destruct (qrun k os q1). exact IH.
Qed.
Lemma trigger_ready k os : forall q, Forall quiet os -> qframe q <> None -> awaiting q = true -> In QTrigger os -> ready (snd (qrun k os q)) = true.
Proof.
  induction os as [|o os IH]; intros q F H A I; [destruct I|]. inversion F; subst.
  destruct (ready (snd (qstep k o q))) eqn:R.
  - cbn [qrun]. pose proof (frame_kept k o q H2) as E. destruct (qstep k o q) as [e q1]. cbn [snd] in *.
    pose proof (ready_kept k os q1 H3 ltac:(congruence) R) as X. destruct (qrun k os q1). exact X.
  - assert (N : awaiting (snd (qstep k o q)) = true /\ o <> QTrigger).
    { destruct q as [f p s a]. unfold ready in R. cbn in *. subst a. destruct f as [i|]; [|congruence].
      destruct o; cbn in *; try contradiction; destruct p, k, s; cbn in *; try discriminate; split; congruence. }
    destruct N as [N1 N2]. assert (N : In QTrigger os) by (destruct I as [-> | I]; [congruence|exact I]).
    cbn [qrun]. pose proof (frame_kept k o q H2) as E. destruct (qstep k o q) as [e q1]. cbn [snd] in *.
    specialize (IH q1 H3 ltac:(congruence) N1 N). destruct (qrun k os q1). exact IH.
Qed.
(** Waiting goes on until there is something to collect. *)
Lemma awaiting_kept k os : forall q, Forall quiet os -> qframe q <> None -> awaiting q = true ->
  ready (snd (qrun k os q)) = true \/ awaiting (snd (qrun k os q)) = true.
Proof.
  induction os as [|o os IH]; intros q F H A; [right; exact A|]. inversion F; subst.
  destruct (ready (snd (qstep k o q))) eqn:R.
  - left. cbn [qrun]. pose proof (frame_kept k o q H2) as E. destruct (qstep k o q) as [e q1]. cbn [snd] in *.
    pose proof (ready_kept k os q1 H3 ltac:(congruence) R) as X. destruct (qrun k os q1). exact X.
  - assert (N : awaiting (snd (qstep k o q)) = true).
    { destruct q as [f p s a]. unfold ready in R. cbn in *. subst a. destruct f as [i|]; [|congruence].
      destruct o; cbn in *; try contradiction; destruct p, k, s; cbn in *; try discriminate; congruence. }
    cbn [qrun]. pose proof (frame_kept k o q H2) as E. destruct (qstep k o q) as [e q1]. cbn [snd] in *.
    specialize (IH q1 H3 ltac:(congruence) N). destruct (qrun k os q1). exact IH.
Qed.
(** A frame is delivered before it is collected, at a source that plays. *)
Lemma delivered_first k os : forall q e1 f e2, qinv q -> ~ In QStop os -> stopped q = false ->
  fst (qrun k os q) = e1 ++ Collected f :: e2 -> In f (heldDone q) \/ In (Delivered f) e1.
Proof.
  induction os as [|o os IH]; intros q e1 f e2 Iq N St E; [destruct e1; discriminate|].
  assert (N1 : o <> QStop) by (intros ->; apply N; left; reflexivity).
  cbn [qrun] in E. destruct (qstep k o q) as [e q1] eqn:Q. destruct (qrun k os q1) as [es q2] eqn:R. cbn [fst] in E.
  assert (X : (e = [] /\ (heldDone q1 = heldDone q) \/ (exists i, e = [Taken i]) /\ heldDone q1 = [] \/
    (exists i, e = [Delivered i] /\ heldDone q1 = [i]) \/ (exists i, e = [Collected i] /\ heldDone q = [i] /\ heldDone q1 = [])) /\ qinv q1 /\ stopped q1 = false).
  { pose proof (qstep_kept k o q Iq N1 St) as K. rewrite Q in K. cbn [fst snd] in K. destruct K as (K1 & K2 & _).
    split; [|split; assumption].
    destruct q as [fr p s a]. cbn in St. subst s. unfold qinv in Iq. cbn in Iq. unfold heldDone.
    destruct o; try congruence; destruct fr as [i|]; destruct p, a, k; cbn in Q; inversion Q; subst; cbn;
      try (specialize (Iq eq_refl); discriminate);
      first [left; split; reflexivity | right; left; split; [eexists; reflexivity|reflexivity]
            | right; right; left; eexists; split; reflexivity | right; right; right; eexists; repeat split; reflexivity]. }
  assert (No : ~ In QStop os) by (intros Y; apply N; right; exact Y).
  destruct X as (X & Iq1 & St1).
  specialize (fun a b c H => IH q1 a b c Iq1 No St1 (eq_trans (f_equal fst R) H)). cbn [fst] in IH.
  destruct X as [(-> & H)|[((i & ->) & H)|[(i & -> & H)|(i & -> & H & H')]]]; cbn [app] in E.
  - rewrite <- H. exact (IH _ _ _ E).
  - destruct e1 as [|x e1]; [discriminate|]. inversion E; subst x. destruct (IH _ _ _ H2) as [Y|Y]; [rewrite H in Y; destruct Y|right; right; exact Y].
  - destruct e1 as [|x e1]; [discriminate|]. inversion E; subst x. destruct (IH _ _ _ H2) as [Y|Y]; [|right; right; exact Y].
    rewrite H in Y. destruct Y as [-> | []]. right. left. reflexivity.
  - destruct e1 as [|x e1].
    + inversion E; subst. left. rewrite H. left. reflexivity.
    + inversion E; subst x. destruct (IH _ _ _ H2) as [Y|Y]; [rewrite H' in Y; destruct Y|right; right; exact Y].
Qed.

(** *** The map of sources *)
Definition shape (m : zmap source) := map (fun x : Z * source => (fst x, (sobj (snd x), skind (snd x), strig (snd x)))) m.
Definition heldN (m : zmap source) : Z :=
  Z.of_nat (length (filter (fun x : Z * source => match qframe (sstate (snd x)) with Some _ => true | None => false end) m)).

Lemma shape_keys m : mkeys m = map fst (shape m).
Proof. unfold mkeys, shape. rewrite map_map. reflexivity. Qed.
Lemma sorted_shape m : forall lo m', shape m = shape m' -> sorted_from lo m -> sorted_from lo m'.
Proof.
  induction m as [|[k s] m IH]; intros lo [|[k' s'] m'] E H; cbn in *; try discriminate; auto.
  inversion E; subst. destruct H as [H H']. split; [exact H|]. eapply IH; [eassumption|exact H'].
Qed.
Lemma shape_mset m : forall lo r s q, sorted_from lo m -> mfind r m = Some s -> shape (mset r (withState s q) m) = shape m.
Proof.
  induction m as [|[k x] m IH]; intros lo r s q H F; cbn in *; [discriminate|].
  destruct H as [H1 H2]. destruct (Z.eqb_spec r k) as [-> | N]; [inversion F; subst; reflexivity|].
  apply mfind_In in F as G. pose proof (sorted_lower m k r s H2 G). destruct (Z.ltb_spec r k); [lia|].
  cbn. f_equal. eapply IH; eauto.
Qed.
Lemma heldN_mset m : forall lo r s q, sorted_from lo m -> mfind r m = Some s ->
  heldN (mset r (withState s q) m) = heldN m + (match qframe q with Some _ => 1 | None => 0 end) - (match qframe (sstate s) with Some _ => 1 | None => 0 end).
Proof.
  unfold heldN. induction m as [|[k x] m IH]; intros lo r s q H F; cbn [mset mfind] in *; [discriminate|].
  destruct H as [H1 H2]. destruct (Z.eqb_spec r k) as [-> | N].
  - inversion F; subst. cbn [filter snd withState sstate]. destruct (qframe q), (qframe (sstate s)); cbn [length]; lia.
  - apply mfind_In in F as G. pose proof (sorted_lower m k r s H2 G). destruct (Z.ltb_spec r k); [lia|].
    specialize (IH (Some k) r s q H2 F). cbn [filter snd]. destruct (qframe (sstate x)); cbn [length]; lia.
Qed.
Lemma heldN_zero m : heldN m = 0 <-> (forall r s, In (r, s) m -> qframe (sstate s) = None).
Proof.
  unfold heldN. induction m as [|[k x] m IH]; cbn [filter snd]; [split; [intros _ r s []|reflexivity]|].
  destruct (qframe (sstate x)) as [f|] eqn:E.
  - split; [cbn [length]; lia|]. intros H. specialize (H k x (or_introl eq_refl)). congruence.
  - rewrite IH. split; [intros H r s [X|X]; [inversion X; subst; exact E|exact (H r s X)]|intros H r s X; apply (H r s); right; exact X].
Qed.
Lemma heldN_nonneg m : 0 <= heldN m.
Proof. unfold heldN. lia. Qed.

Definition agree (t t' : tx) : Prop := shape (tsrc t') = shape (tsrc t) /\ tfreed t' = tfreed t /\ tused t' = tused t /\ tnext t' = tnext t.
Lemma agree_refl t : agree t t.
Proof. repeat split. Qed.
Lemma agree_trans a b c : agree a b -> agree b c -> agree a c.
Proof. unfold agree. intuition congruence. Qed.
Lemma agree_sorted a b : agree a b -> msorted (tsrc a) -> msorted (tsrc b).
Proof. intros (H & _) S. eapply sorted_shape; [symmetry; exact H|exact S]. Qed.

Lemma at_app r a b : at_ r (a ++ b) = at_ r a ++ at_ r b.
Proof. apply flat_map_app. Qed.
Lemma at_tag r x e : at_ r (tag x e) = if x =? r then e else [].
Proof.
  unfold at_, tag. induction e as [|y e IH]; cbn; [destruct (x =? r); reflexivity|]. rewrite IH. destruct (x =? r); reflexivity.
Qed.

(** [evolves r os s t e t']: at input [r], with source [s], going from [t] to [t'] with trace [e] was running [os]. *)
Definition evolves (r : Z) (os : list qop) (s : source) (e : trace) (t' : tx) : Prop :=
  mfind r (tsrc t') = Some (withState s (snd (qrun (skind s) os (sstate s)))) /\ at_ r e = fst (qrun (skind s) os (sstate s)).
Lemma withState_id s : withState s (sstate s) = s.
Proof. destruct s; reflexivity. Qed.
Lemma evolves_nil r s t : mfind r (tsrc t) = Some s -> evolves r [] s [] t.
Proof. intros H. split; cbn; [rewrite withState_id; exact H|reflexivity]. Qed.
Lemma evolves_app r a b s e f t1 t2 : evolves r a s e t1 ->
  evolves r b (withState s (snd (qrun (skind s) a (sstate s)))) f t2 -> evolves r (a ++ b) s (e ++ f) t2.
Proof.
  intros [A1 A2] [B1 B2]. unfold evolves. cbn [skind sstate withState] in *. rewrite qrun_app.
  destruct (qrun (skind s) a (sstate s)) as [x q1]. cbn [fst snd] in *. destruct (qrun (skind s) b q1) as [y q2]. cbn [fst snd] in *.
  split; [exact B1|]. rewrite at_app. congruence.
Qed.

Lemma atSource_agree r o t e t' : msorted (tsrc t) -> atSource r o t = (e, t') -> agree t t' /\ tpend t' = tpend t.
Proof.
  intros S H. unfold atSource in H. destruct (mfind r (tsrc t)) as [s|] eqn:F; [|inversion H; subst; split; [apply agree_refl|reflexivity]].
  destruct (qstep (skind s) o (sstate s)) as [x q]. inversion H; subst. cbn. repeat split; cbn. eapply shape_mset; eauto.
Qed.
Lemma atSource_evolves x o t e t' r s : atSource x o t = (e, t') -> mfind r (tsrc t) = Some s ->
  evolves r (if x =? r then [o] else []) s e t'.
Proof.
  intros H F. unfold atSource in H. destruct (Z.eqb_spec x r) as [-> | N].
  - rewrite F in H. destruct (qstep (skind s) o (sstate s)) as [y q] eqn:Q. inversion H; subst. split; cbn [qrun tsrc withSrc].
    + rewrite mfind_mset_eq, Q. reflexivity.
    + rewrite at_tag, Z.eqb_refl, Q. cbn. rewrite app_nil_r. reflexivity.
  - destruct (mfind x (tsrc t)) as [s0|] eqn:F0.
    + destruct (qstep (skind s0) o (sstate s0)) as [y q]. inversion H; subst. split; cbn [qrun tsrc withSrc fst snd].
      * rewrite mfind_mset_neq by congruence. rewrite withState_id. exact F.
      * rewrite at_tag. destruct (Z.eqb_spec x r); [congruence|reflexivity].
    + inversion H; subst. apply evolves_nil. exact F.
Qed.
Lemma atSource_heldN x o t e t' : msorted (tsrc t) -> quiet o -> atSource x o t = (e, t') -> heldN (tsrc t') = heldN (tsrc t).
Proof.
  intros S Q H. unfold atSource in H. destruct (mfind x (tsrc t)) as [s|] eqn:F; [|inversion H; subst; reflexivity].
  pose proof (frame_kept (skind s) o (sstate s) Q) as E. destruct (qstep (skind s) o (sstate s)) as [y q]. inversion H; subst. cbn [tsrc withSrc snd] in *.
  erewrite heldN_mset by eauto. rewrite E. lia.
Qed.

Definition opOf (r : Z) (e : ev) : list qop :=
  match e with Ask x => if x =? r then [QAsk] else [] | Stop x => if x =? r then [QStop] else [] end.
Definition opsOf (r : Z) (es : list ev) : list qop := flat_map (opOf r) es.
Lemma opsOf_quiet r es : Forall quiet (opsOf r es).
Proof.
  induction es as [|[x|x] es IH]; cbn; [constructor| |]; destruct (x =? r); cbn; auto; constructor; cbn; auto.
Qed.
Lemma opsOf_ask r es : In (Ask r) es -> In QAsk (opsOf r es).
Proof. intros H. apply in_flat_map. exists (Ask r). split; [exact H|]. cbn. rewrite Z.eqb_refl. left. reflexivity. Qed.
Lemma opsOf_stop r es : In (Stop r) es <-> In QStop (opsOf r es).
Proof.
  unfold opsOf. rewrite in_flat_map. split.
  - intros H. exists (Stop r). split; [exact H|]. cbn. rewrite Z.eqb_refl. left. reflexivity.
  - intros ([x|x] & H & I); cbn in I; destruct (Z.eqb_spec x r) as [-> | N]; cbn in I; try contradiction; destruct I as [I|[]]; try discriminate. exact H.
Qed.

Lemma sinkDoes_props e t a t' : msorted (tsrc t) -> sinkDoes e t = (a, t') ->
  agree t t' /\ tpend t' = tpend t /\ heldN (tsrc t') = heldN (tsrc t) /\
  (forall r s, mfind r (tsrc t) = Some s -> evolves r (opOf r e) s a t').
Proof.
  intros S H. destruct e as [x|x]; cbn [sinkDoes] in H; destruct (atSource_agree _ _ _ _ _ S H) as [A B];
    (assert (heldN (tsrc t') = heldN (tsrc t)) by (eapply atSource_heldN; [exact S| |exact H]; exact I)); (do 3 (split; [assumption|]));
    intros r s F; exact (atSource_evolves _ _ _ _ _ r s H F).
Qed.
Lemma sinksDo_props es : forall t a t', msorted (tsrc t) -> sinksDo es t = (a, t') ->
  agree t t' /\ tpend t' = tpend t /\ heldN (tsrc t') = heldN (tsrc t) /\
  (forall r s, mfind r (tsrc t) = Some s -> evolves r (opsOf r es) s a t').
Proof.
  induction es as [|e es IH]; intros t a t' S H; cbn [sinksDo] in H.
  - inversion H; subst. split; [apply agree_refl|]. do 2 (split; [reflexivity|]). intros r s F. apply evolves_nil. exact F.
  - destruct (sinkDoes e t) as [x t1] eqn:E1. destruct (sinksDo es t1) as [y t2] eqn:E2. inversion H; subst.
    destruct (sinkDoes_props e t x t1 S E1) as (A & B & C & D).
    destruct (IH t1 y t' (agree_sorted _ _ A S) E2) as (A' & B' & C' & D').
    split; [eapply agree_trans; eassumption|]. split; [congruence|]. split; [congruence|].
    intros r s F. specialize (D r s F). cbn [opsOf flat_map]. eapply evolves_app; [exact D|]. apply D'. destruct D. assumption.
Qed.

(** *** Objects *)
Definition objs (m : zmap source) : list Z := map (fun x : Z * source => sobj (snd x)) m.
Lemma objs_shape m : objs m = map (fun x => fst (fst (snd x))) (shape m).
Proof. unfold objs, shape. rewrite map_map. reflexivity. Qed.
Lemma inputOf_some m : forall lo o r, sorted_from lo m -> inputOf o m = Some r -> exists s, mfind r m = Some s /\ sobj s = o.
Proof.
  induction m as [|[k x] m IH]; intros lo o r S H; cbn in *; [discriminate|]. destruct S as [S1 S2].
  destruct (Z.eqb_spec (sobj x) o) as [E|E].
  - inversion H; subst. rewrite Z.eqb_refl. eauto.
  - destruct (IH (Some k) o r S2 H) as (s & F & O). apply mfind_In in F as G. pose proof (sorted_lower m k r s S2 G).
    destruct (Z.eqb_spec r k); [lia|eauto].
Qed.
Lemma inputOf_find m : forall r s, NoDup (objs m) -> mfind r m = Some s -> inputOf (sobj s) m = Some r.
Proof.
  induction m as [|[k x] m IH]; intros r s N F; cbn in *; [discriminate|]. inversion N; subst.
  destruct (Z.eqb_spec r k) as [-> | D]; [inversion F; subst; rewrite Z.eqb_refl; reflexivity|].
  destruct (Z.eqb_spec (sobj x) (sobj s)) as [E|E]; [|apply IH; assumption].
  exfalso. apply H1. rewrite E. apply mfind_In in F. apply in_map_iff. exists (r, s). split; [reflexivity|exact F].
Qed.

(** The invariant of a history. *)
Record wf (t : tx) : Prop := {
  wf_sorted : msorted (tsrc t);
  wf_objs : NoDup (objs (tsrc t));
  wf_fresh : forall o, In o (objs (tsrc t)) -> o < tnext t;
  wf_live : forall o, In o (objs (tsrc t)) -> ~ In o (tfreed t);
  wf_freed : forall o, In o (tfreed t) -> o < tnext t;
  wf_pend : NoDup (tpend t);
}.
Lemma wf_agree t t' : wf t -> agree t t' -> NoDup (tpend t') -> wf t'.
Proof.
  intros W A P. pose proof (agree_sorted _ _ A (wf_sorted _ W)). destruct A as (A & B & C & D). destruct W.
  assert (E : objs (tsrc t') = objs (tsrc t)) by (rewrite !objs_shape; congruence).
  constructor; auto; rewrite ?E, ?B, ?D; auto.
Qed.

Lemma picked_spec n l o rest : picked n l = Some (o, rest) ->
  In o l /\ (forall x, In x l -> x = o \/ In x rest) /\ S (length rest) = length l /\ (NoDup l -> NoDup rest /\ ~ In o rest) /\ (forall x, In x rest -> In x l).
Proof.
  unfold picked. destruct l as [|h l0] eqn:E; [discriminate|]. intros H. rewrite <- E in *.
  assert (L : (length l <> 0)%nat) by (subst l; cbn; lia). clear E.
  set (i := (n mod length l)%nat) in *. assert (B : (i < length l)%nat) by (apply Nat.mod_upper_bound; exact L).
  injection H as <- <-. change (match l with [] => [] | _ :: l1 => skipn i l1 end) with (skipn (S i) l) in *.
  assert (D : l = firstn i l ++ nth i l h :: skipn (S i) l).
  { rewrite <- (firstn_skipn i l) at 1. f_equal. clearbody i. clear -B. revert l B. induction i as [|i IH]; intros [|y l] B; cbn in *; try lia; [reflexivity|]. apply IH. lia. }
  split; [apply nth_In; exact B|]. split; [|split; [|split]].
  - intros x X. rewrite D in X. apply in_app_or in X. destruct X as [X|[X|X]]; [right; apply in_or_app; left; exact X|left; congruence|right; apply in_or_app; right; exact X].
  - rewrite app_length. apply (f_equal (@length Z)) in D. rewrite app_length in D. cbn [length] in D. lia.
  - intros N. rewrite D in N. apply NoDup_remove in N. exact N.
  - intros x X. rewrite D. apply in_app_or in X. apply in_or_app. destruct X; [left; assumption|right; right; assumption].
Qed.
Lemma picked_none n l : picked n l = None <-> l = [].
Proof. destruct l; cbn; split; congruence. Qed.

(** *** SingleStep *)
Definition handled (st : sstep) (t : tx) (o : Z) : Prop := exists rest, picked (pick st) (tpend t) = Some (o, rest).
Lemma singleStep_props st t e t' : wf t -> singleStep st t = Some (e, t') ->
  agree t t' /\ heldN (tsrc t') = heldN (tsrc t) /\ wf t' /\
  (tpend t' = match picked (pick st) (tpend t) with Some (_, rest) => rest | None => [] end) /\
  (forall r s, mfind r (tsrc t) = Some s -> exists mid, (mid = [] /\ ~ handled st t (sobj s) \/ mid = [QTrigger] /\ handled st t (sobj s)) /\
     evolves r (opsOf r (before st) ++ mid ++ opsOf r (after st)) s e t').
Proof.
  intros W H. unfold singleStep in H. destruct (sinksDo (before st) t) as [a t1] eqn:E1.
  destruct (sinksDo_props _ _ _ _ (wf_sorted _ W) E1) as (A1 & P1 & N1 & V1).
  assert (W1 : wf t1) by (eapply wf_agree; eauto; rewrite P1; apply W).
  set (X := match picked (pick st) (tpend t1) with None => Some ([], t1) | Some (o, rest) => handle o (mkTx (tsrc t1) rest (tfreed t1) (tused t1) (tnext t1)) end) in *.
  destruct X as [[b t2]|] eqn:EX; [|discriminate]. destruct (sinksDo (after st) t2) as [c t3] eqn:E3. inversion H; subst e t'. clear H.
  assert (Y : agree t1 t2 /\ heldN (tsrc t2) = heldN (tsrc t1) /\ tpend t2 = match picked (pick st) (tpend t) with Some (_, rest) => rest | None => [] end /\ NoDup (tpend t2) /\
    forall r s, mfind r (tsrc t1) = Some s -> exists mid, (mid = [] /\ ~ handled st t (sobj s) \/ mid = [QTrigger] /\ handled st t (sobj s)) /\ evolves r mid s b t2).
  { unfold X in EX. clear X. rewrite P1 in EX. destruct (picked (pick st) (tpend t)) as [[o rest]|] eqn:EP.
    - pose proof (picked_spec _ _ _ _ EP) as (Q1 & Q2 & Q3 & Q4 & Q5). destruct (Q4 (wf_pend _ W)) as [Q6 Q7].
      unfold handle in EX. cbn [tfreed tsrc] in EX. destruct (existsb (Z.eqb o) (tfreed t1)) eqn:EF; [discriminate|].
      destruct (inputOf o (tsrc t1)) as [x|] eqn:EI.
      + injection EX as EX. pose proof (atSource_agree x QTrigger (mkTx (tsrc t1) rest (tfreed t1) (tused t1) (tnext t1)) b t2 (wf_sorted _ W1) EX) as [A2 P2].
        split; [exact A2|]. split; [exact (atSource_heldN x QTrigger (mkTx (tsrc t1) rest (tfreed t1) (tused t1) (tnext t1)) b t2 (wf_sorted _ W1) I EX)|].
        cbn [tpend] in P2. split; [exact P2|]. split; [rewrite P2; exact Q6|].
        intros r s F. exists (if x =? r then [QTrigger] else []). split; [|exact (atSource_evolves x QTrigger (mkTx (tsrc t1) rest (tfreed t1) (tused t1) (tnext t1)) b t2 r s EX F)].
        destruct (inputOf_some _ None _ _ (wf_sorted _ W1) EI) as (sx & FX & OX).
        destruct (Z.eqb_spec x r) as [-> | D].
        * right. split; [reflexivity|]. exists rest. rewrite EP. rewrite FX in F. inversion F; subst. reflexivity.
        * left. split; [reflexivity|]. intros (rest' & HR). rewrite EP in HR. injection HR as HO HR. rewrite HO in EI.
          rewrite (inputOf_find _ r s (wf_objs _ W1) F) in EI. congruence.
      + inversion EX; subst b t2. cbn [tsrc tpend]. split; [repeat split|]. split; [reflexivity|]. split; [reflexivity|]. split; [exact Q6|].
        intros r s F. exists []. split; [|apply evolves_nil; exact F]. left. split; [reflexivity|]. intros (rest' & HR). rewrite EP in HR. injection HR as HO HR. rewrite HO in EI.
        rewrite (inputOf_find _ r s (wf_objs _ W1) F) in EI. congruence.
    - inversion EX; subst b t2. apply picked_none in EP as EN. rewrite P1, EN. split; [apply agree_refl|]. split; [reflexivity|]. split; [reflexivity|]. split; [constructor|].
      intros r s F. exists []. split; [|apply evolves_nil; exact F]. left. split; [reflexivity|]. intros (rest' & HR). congruence. }
  destruct Y as (A2 & N2 & P2 & D2 & V2).
  assert (W2 : wf t2) by (eapply wf_agree; eauto).
  destruct (sinksDo_props _ _ _ _ (wf_sorted _ W2) E3) as (A3 & P3 & N3 & V3).
  split; [eapply agree_trans; [exact A1|eapply agree_trans; eassumption]|]. split; [congruence|].
  split; [eapply wf_agree; [exact W2|exact A3|rewrite P3; exact D2]|]. split; [congruence|].
  intros r s F. specialize (V1 r s F). destruct (V2 r _ (proj1 V1)) as (mid & M & VM). cbn [sobj withState] in M. exists mid. split; [exact M|].
  eapply evolves_app; [exact V1|]. eapply evolves_app; [exact VM|]. apply V3. apply VM.
Qed.

(** *** Collecting *)
Lemma collectAll_props m : forall lo b m', sorted_from lo m -> collectAll m = (b, m') ->
  shape m' = shape m /\ heldN m = heldN m' + Z.of_nat (length b) /\
  (forall r s, mfind r m = Some s -> mfind r m' = Some (withState s (snd (qstep (skind s) QGot (sstate s)))) /\ at_ r b = fst (qstep (skind s) QGot (sstate s))) /\
  (forall r, mfind r m = None -> at_ r b = []).
Proof.
  induction m as [|[k x] m IH]; intros lo b m' S H; cbn [collectAll] in H.
  - inversion H; subst. repeat split; intros; try discriminate.
  - destruct S as [S1 S2]. destruct (qstep (skind x) QGot (sstate x)) as [e q] eqn:Q. destruct (collectAll m) as [b0 m0] eqn:C. inversion H; subst.
    destruct (IH (Some k) b0 m0 S2 eq_refl) as (A & B & D & F).
    split; [unfold shape in *; cbn [map]; rewrite A; reflexivity|]. split.
    { assert (X : (match qframe (sstate x) with Some _ => 1 | None => 0 end) = (match qframe q with Some _ => 1 | None => 0 end) + Z.of_nat (length e)).
      { destruct (sstate x) as [f p s a]. cbn in Q. destruct p, s, f; cbn in Q; inversion Q; subst; reflexivity. }
      unfold heldN in *. cbn [filter snd withState sstate]. rewrite app_length. unfold tag. rewrite map_length.
      destruct (qframe (sstate x)), (qframe q); cbn [length] in *; lia. }
    split.
    + intros r s G. cbn [mfind] in *. rewrite at_app, at_tag. destruct (Z.eqb_spec r k) as [-> | N].
      * inversion G; subst. rewrite Z.eqb_refl, Q. cbn [fst snd]. rewrite (F k (mfind_lower m k k S2 ltac:(lia))), app_nil_r. split; reflexivity.
      * destruct (Z.eqb_spec k r); [congruence|]. cbn [app]. apply D. exact G.
    + intros r0 G. cbn [mfind] in G. destruct (Z.eqb_spec r0 k) as [E0|N]; [discriminate|].
      rewrite at_app, at_tag. destruct (Z.eqb_spec k r0); [congruence|]. cbn [app]. apply F. exact G.
Qed.

(** *** Handing the new frames over *)
Record pok (t : tx) : Prop := {
  pok_fresh : forall o, In o (tpend t) -> o < tnext t;
  pok_trig : forall r s, mfind r (tsrc t) = Some s -> strig s = false -> ~ In (sobj s) (tpend t);
}.
Lemma shape_find m : forall m' r s, shape m = shape m' -> mfind r m = Some s ->
  exists s', mfind r m' = Some s' /\ sobj s' = sobj s /\ skind s' = skind s /\ strig s' = strig s.
Proof.
  induction m as [|[k x] m IH]; intros [|[k' x'] m'] r s E F; cbn in *; try discriminate.
  inversion E; subst. destruct (r =? k'); [inversion F; subst; exists x'; auto|eapply IH; eauto].
Qed.
Lemma shape_none m : forall m' r, shape m = shape m' -> mfind r m = None -> mfind r m' = None.
Proof.
  intros m' r E F. destruct (mfind r m') as [s|] eqn:G; [|reflexivity].
  destruct (shape_find _ _ _ _ (eq_sym E) G) as (s' & H & _). congruence.
Qed.
Lemma pok_agree t t' : pok t -> agree t t' -> (forall o, In o (tpend t') -> In o (tpend t)) -> pok t'.
Proof.
  intros [P1 P2] (A & B & C & D) S. constructor.
  - intros o H. rewrite D. apply P1, S, H.
  - intros r s F T H. destruct (shape_find _ _ _ _ A F) as (s' & F' & O & _ & T'). apply (P2 r s' F'); [congruence|]. rewrite O. apply S, H.
Qed.

Lemma existsb_In o l : existsb (Z.eqb o) l = true <-> In o l.
Proof. rewrite existsb_exists. split; [intros (x & H & E); apply Z.eqb_eq in E; congruence|intros H; exists o; split; [exact H|apply Z.eqb_refl]]. Qed.
Lemma signal_props r s t : wf t -> pok t -> mfind r (tsrc t) = Some s ->
  agree t (signal s t) /\ tsrc (signal s t) = tsrc t /\ wf (signal s t) /\ pok (signal s t) /\
  (forall o, In o (tpend t) -> In o (tpend (signal s t))) /\ (length (tpend (signal s t)) <= S (length (tpend t)))%nat /\
  (strig s = true -> In (sobj s) (tpend (signal s t))) /\
  (forall o, In o (tpend (signal s t)) -> In o (tpend t) \/ o = sobj s).
Proof.
  intros W P F. unfold signal. destruct (strig s) eqn:T; cbn [andb].
  2:{ split; [apply agree_refl|]. split; [reflexivity|]. do 2 (split; [assumption|]). repeat split; auto; try discriminate. }
  destruct (existsb (Z.eqb (sobj s)) (tpend t)) eqn:E; cbn [negb].
  - apply existsb_In in E. split; [apply agree_refl|]. split; [reflexivity|]. do 2 (split; [assumption|]). repeat split; auto.
  - assert (N : ~ In (sobj s) (tpend t)) by (intros H; apply existsb_In in H; congruence).
    assert (O : In (sobj s) (objs (tsrc t))) by (apply in_map_iff; exists (r, s); split; [reflexivity|apply mfind_In; exact F]).
    assert (A : agree t (mkTx (tsrc t) (tpend t ++ [sobj s]) (tfreed t) (tused t) (tnext t))) by (repeat split).
    split; [exact A|]. split; [reflexivity|]. cbn [tpend]. split; [|split; [|split; [|split; [|split]]]].
    + eapply wf_agree; [exact W|exact A|]. cbn.
      clear -W N. pose proof (wf_pend _ W) as D. induction (tpend t) as [|x l IH]; cbn; [constructor; [intros []|constructor]|].
      inversion D; subst. constructor; [|apply IH; [intros H; apply N; right; exact H|assumption]].
      intros H. apply in_app_or in H. destruct H as [H|[H|[]]]; [auto|]. apply N. left. congruence.
    + destruct P as [P1 P2]. constructor; cbn.
      * intros o H. apply in_app_or in H. destruct H as [H|[<- | []]]; [auto|]. apply (wf_fresh _ W). exact O.
      * intros r' s' F' T' H. apply in_app_or in H. destruct H as [H|[H|[]]]; [exact (P2 r' s' F' T' H)|].
        pose proof (inputOf_find _ r s (wf_objs _ W) F) as I1. pose proof (inputOf_find _ r' s' (wf_objs _ W) F') as I2.
        rewrite <- H in I2. rewrite I1 in I2. inversion I2; subst. congruence.
    + intros o H. apply in_or_app. left. exact H.
    + rewrite app_length. cbn. lia.
    + intros _. apply in_or_app. right. left. reflexivity.
    + intros o H. apply in_app_or in H. destruct H as [H|[H|[]]]; auto.
Qed.

Fixpoint firstOf (r : Z) (fs : list (Z * Z)) : option Z :=
  match fs with [] => None | (x, f) :: fs => if x =? r then Some f else firstOf r fs end.
Definition setOps (r : Z) (fs : list (Z * Z)) (q : qsource) : list qop :=
  match qframe q, firstOf r fs with None, Some f => [QSet f] | _, _ => [] end.
Lemma hand_props fs : forall t a n t', wf t -> pok t -> hand fs t = (a, n, t') ->
  agree t t' /\ wf t' /\ pok t' /\ 0 <= n /\ heldN (tsrc t') = heldN (tsrc t) + n /\
  (forall o, In o (tpend t) -> In o (tpend t')) /\ (length (tpend t') <= length (tpend t) + length fs)%nat /\
  (n = 0 -> tpend t' = tpend t) /\
  (forall r s, mfind r (tsrc t) = Some s -> evolves r (setOps r fs (sstate s)) s a t' /\
     (setOps r fs (sstate s) <> [] -> strig s = true -> In (sobj s) (tpend t'))) /\
  (forall r, mfind r (tsrc t) = None -> at_ r a = []).
Proof.
  induction fs as [|[x f] fs IH]; intros t a n t' W P H; cbn [hand] in H.
  - inversion H; subst. split; [apply agree_refl|]. do 2 (split; [assumption|]). split; [lia|]. split; [lia|]. split; [auto|]. split; [lia|]. split; [auto|]. split; [|auto].
    intros r s F. unfold setOps. cbn. split; [destruct (qframe (sstate s)); apply evolves_nil; exact F|]. destruct (qframe (sstate s)); congruence.
  - destruct (mfind x (tsrc t)) as [sx|] eqn:F.
    2:{ destruct (IH t a n t' W P H) as (A & B & C & D & E & G & L & Z0 & V & N). do 6 (split; [assumption|]). split; [cbn; lia|]. split; [assumption|]. split; [|assumption].
        intros r s Fr. destruct (V r s Fr) as [V1 V2]. unfold setOps in *. cbn [firstOf]. destruct (Z.eqb_spec x r) as [-> | _]; [congruence|]. split; assumption. }
    destruct (qframe (sstate sx)) as [g|] eqn:Q.
    { destruct (IH t a n t' W P H) as (A & B & C & D & E & G & L & Z0 & V & N). do 6 (split; [assumption|]). split; [cbn; lia|]. split; [assumption|]. split; [|assumption].
      intros r s Fr. destruct (V r s Fr) as [V1 V2]. unfold setOps in *. cbn [firstOf]. destruct (Z.eqb_spec x r) as [-> | _]; [|split; assumption].
      rewrite F in Fr. inversion Fr; subst. rewrite Q in *. split; assumption. }
    destruct (atSource x (QSet f) t) as [b t1] eqn:E1. destruct (hand fs (signal sx t1)) as [[c m] t2] eqn:E2. inversion H; subst a n t2. clear H.
    destruct (atSource_agree _ _ _ _ _ (wf_sorted _ W) E1) as [A1 P1].
    assert (W1 : wf t1) by (eapply wf_agree; eauto; rewrite P1; apply W).
    assert (K1 : pok t1) by (eapply pok_agree; eauto; rewrite P1; auto).
    pose proof (atSource_evolves _ _ _ _ _ x sx E1 F) as VX. rewrite Z.eqb_refl in VX.
    set (sx1 := withState sx (snd (qrun (skind sx) [QSet f] (sstate sx)))) in *.
    pose proof (signal_props x sx1 t1 W1 K1 (proj1 VX)) as (A2 & T2 & W2 & K2 & S1 & S2 & S3 & S4).
    change (signal sx1 t1) with (signal sx t1) in *. change (sobj sx1) with (sobj sx) in *. change (strig sx1) with (strig sx) in *.
    destruct (IH _ _ _ _ W2 K2 E2) as (A & B & C & D & E & G & L & Z0 & V & N).
    assert (A12 : agree t (signal sx t1)) by (eapply agree_trans; eassumption).
    assert (HN : heldN (tsrc (signal sx t1)) = heldN (tsrc t) + 1).
    { rewrite T2. unfold atSource in E1. rewrite F in E1. cbn [qstep] in E1. rewrite Q in E1. inversion E1; subst. cbn [tsrc withSrc].
      erewrite heldN_mset by (try exact F; apply W). rewrite Q. cbn. lia. }
    split; [eapply agree_trans; eassumption|]. do 2 (split; [assumption|]). split; [lia|]. split; [lia|].
    split; [intros o H; apply G, S1; rewrite P1; exact H|]. split; [rewrite P1 in S2; cbn [length]; lia|]. split; [lia|]. split.
    + intros r s Fr. pose proof (atSource_evolves _ _ _ _ _ r s E1 Fr) as V1.
      destruct (V r _ ltac:(rewrite T2; exact (proj1 V1))) as [V2 V3]. cbn [sobj strig withState] in V3.
      unfold setOps. cbn [firstOf]. destruct (Z.eqb_spec x r) as [-> | NE].
      * rewrite F in Fr. inversion Fr; subst s. rewrite Q. split; [|intros _ T; apply G, S3, T].
        change [QSet f] with ([QSet f] ++ []). eapply evolves_app; [exact V1|].
        unfold setOps in V2. cbn [sstate withState qrun qstep] in V2. rewrite Q in V2. cbn in V2 |- *. rewrite Q. exact V2.
      * cbn [qrun snd] in V2, V3. change (sstate (withState s (sstate s))) with (sstate s) in *. rewrite withState_id in *.
        unfold setOps in V2, V3. split; [|exact V3].
        destruct V1 as [V1a V1b]. destruct V2 as [V2a V2b]. split; [exact V2a|]. rewrite at_app, V1b. exact V2b.
    + intros r Fr. rewrite at_app, (N r) by (eapply shape_none; [symmetry; exact (proj1 A12)|exact Fr]). rewrite app_nil_r.
      unfold atSource in E1. rewrite F in E1. destruct (qstep (skind sx) (QSet f) (sstate sx)). inversion E1; subst. rewrite at_tag.
      destruct (Z.eqb_spec x r); [congruence|reflexivity].
Qed.

(** *** Inputs that have no source see nothing *)
Lemma atSource_absent x o t e t' r : atSource x o t = (e, t') -> mfind r (tsrc t) = None -> at_ r e = [].
Proof.
  intros H F. unfold atSource in H. destruct (mfind x (tsrc t)) as [s|] eqn:E; [|inversion H; reflexivity].
  destruct (qstep (skind s) o (sstate s)). inversion H; subst. rewrite at_tag. destruct (Z.eqb_spec x r); [congruence|reflexivity].
Qed.
Lemma sinksDo_absent es : forall t e t' r, msorted (tsrc t) -> sinksDo es t = (e, t') -> mfind r (tsrc t) = None -> at_ r e = [].
Proof.
  induction es as [|x es IH]; intros t e t' r S H F; cbn [sinksDo] in H; [inversion H; reflexivity|].
  destruct (sinkDoes x t) as [a t1] eqn:E1. destruct (sinksDo es t1) as [b t2] eqn:E2. inversion H; subst.
  destruct (sinkDoes_props x t a t1 S E1) as (A & _).
  rewrite at_app. rewrite (IH t1 b t' r (agree_sorted _ _ A S) E2) by (eapply shape_none; [symmetry; exact (proj1 A)|exact F]).
  rewrite app_nil_r. destruct x; cbn [sinkDoes] in E1; eapply atSource_absent; eauto.
Qed.
Lemma singleStep_absent st t e t' r : wf t -> singleStep st t = Some (e, t') -> mfind r (tsrc t) = None -> at_ r e = [].
Proof.
  intros W H F. unfold singleStep in H. destruct (sinksDo (before st) t) as [a t1] eqn:E1.
  destruct (sinksDo_props _ _ _ _ (wf_sorted _ W) E1) as (A1 & P1 & _).
  assert (F1 : mfind r (tsrc t1) = None) by (eapply shape_none; [symmetry; exact (proj1 A1)|exact F]).
  assert (S1 : msorted (tsrc t1)) by (eapply agree_sorted; [exact A1|apply W]).
  destruct (match picked (pick st) (tpend t1) with None => Some ([], t1) | Some (o, rest) => handle o (mkTx (tsrc t1) rest (tfreed t1) (tused t1) (tnext t1)) end) as [[b t2]|] eqn:EX; [|discriminate].
  destruct (sinksDo (after st) t2) as [c t3] eqn:E3. inversion H; subst.
  assert (Y : at_ r b = [] /\ mfind r (tsrc t2) = None /\ msorted (tsrc t2)).
  { destruct (picked (pick st) (tpend t1)) as [[o rest]|]; [|inversion EX; subst; auto].
    unfold handle in EX. destruct (existsb (Z.eqb o) _); [discriminate|]. cbn [tsrc] in EX. destruct (inputOf o (tsrc t1)) as [x|]; [|inversion EX; subst; auto].
    injection EX as EX. destruct (atSource_agree x QTrigger (mkTx (tsrc t1) rest (tfreed t1) (tused t1) (tnext t1)) b t2 S1 EX) as [A2 _].
    split; [exact (atSource_absent _ _ _ _ _ r EX F1)|]. split; [exact (shape_none _ _ r (eq_sym (proj1 A2)) F1)|exact (agree_sorted _ _ A2 S1)]. }
  destruct Y as (Y1 & Y2 & Y3). rewrite !at_app, Y1, (sinksDo_absent _ _ _ _ r (wf_sorted _ W) E1 F), (sinksDo_absent _ _ _ _ r Y3 E3 Y2). reflexivity.
Qed.

(** *** One pass of the second loop *)
Lemma pass_props st t a t1 b m : wf t -> pok t -> singleStep st t = Some (a, t1) -> collectAll (tsrc t1) = (b, m) ->
  let t2 := withSrc t1 m in
  agree t t2 /\ wf t2 /\ pok t2 /\ heldN (tsrc t) = heldN m + Z.of_nat (length b) /\
  tpend t2 = match picked (pick st) (tpend t) with Some (_, rest) => rest | None => [] end /\
  (forall r s, mfind r (tsrc t) = Some s -> exists mid, (mid = [] /\ ~ handled st t (sobj s) \/ mid = [QTrigger] /\ handled st t (sobj s)) /\
     evolves r ((opsOf r (before st) ++ mid ++ opsOf r (after st)) ++ [QGot]) s (a ++ b) t2) /\
  (forall r, mfind r (tsrc t) = None -> at_ r (a ++ b) = []).
Proof.
  intros W P E1 E2. destruct (singleStep_props _ _ _ _ W E1) as (A & H & W1 & D & V).
  destruct (collectAll_props _ None _ _ (wf_sorted _ W1) E2) as (A' & H' & V' & N').
  cbn zeta. assert (AA : agree t (withSrc t1 m)).
  { eapply agree_trans; [exact A|]. repeat split; cbn; exact A'. }
  assert (SUB : forall o, In o (tpend t1) -> In o (tpend t)).
  { intros o I. rewrite D in I. destruct (picked (pick st) (tpend t)) as [[x rest]|] eqn:EP; [|destruct I].
    destruct (picked_spec _ _ _ _ EP) as (_ & _ & _ & _ & Q). apply Q, I. }
  split; [exact AA|]. split; [eapply wf_agree; [exact W|exact AA|apply W1]|]. split; [eapply pok_agree; [exact P|exact AA|exact SUB]|].
  split; [lia|]. split; [exact D|]. split.
  - intros r s F. destruct (V r s F) as (mid & M & VM). exists mid. split; [exact M|]. eapply evolves_app; [exact VM|].
    destruct (V' r _ (proj1 VM)) as [V1 V2]. split; cbn [tsrc withSrc qrun skind sstate withState] in *.
    + rewrite V1. destruct (qstep (skind s) QGot _). reflexivity.
    + rewrite V2. destruct (qstep (skind s) QGot _). cbn. rewrite app_nil_r. reflexivity.
  - intros r F. rewrite at_app, (singleStep_absent _ _ _ _ r W E1 F). apply N'. exact (shape_none _ _ r (eq_sym (proj1 A)) F).
Qed.

Definition nosets (os : list qop) : Prop := Forall (fun o => match o with QSet _ => False | _ => True end) os.
Lemma quiet_nosets os : Forall quiet os -> nosets os.
Proof. intros H. eapply Forall_impl; [|exact H]. intros []; cbn; auto. Qed.
Lemma pass_ops r st mid : (mid = [] \/ mid = [QTrigger]) -> Forall quiet (opsOf r (before st) ++ mid ++ opsOf r (after st)).
Proof. intros [-> | ->]; rewrite !Forall_app; repeat split; try apply opsOf_quiet; repeat constructor. Qed.

Lemma precede_ended a x ok e t : precede a x = Ended ok e t -> exists e0, x = Ended ok e0 t /\ e = a ++ e0.
Proof. destruct x; cbn; intros H; inversion H; subst; eauto. Qed.
Lemma precede_waiting a x e t : precede a x = Waiting e t -> exists e0, x = Waiting e0 t /\ e = a ++ e0.
Proof. destruct x; cbn; intros H; inversion H; subst; eauto. Qed.
Lemma precede_dead a x : precede a x = Dead -> x = Dead.
Proof. destruct x; cbn; congruence. Qed.

Lemma does_cons_stop r st steps : does (Stop r) (st :: steps) <-> In (Stop r) (before st) \/ In (Stop r) (after st) \/ does (Stop r) steps.
Proof.
  unfold does. split.
  - intros (x & [<- | I] & H); [tauto|right; right; eauto].
  - intros [H|[H|(x & I & H)]]; [exists st|exists st|exists x]; cbn; tauto.
Qed.

Lemma loop_ended steps : forall p t ok e t', wf t -> pok t -> p = heldN (tsrc t) -> loop steps p t = Ended ok e t' ->
  agree t t' /\ wf t' /\ pok t' /\ heldN (tsrc t') = 0 /\ (forall o, In o (tpend t') -> In o (tpend t)) /\
  (0 < p -> (length (tpend t) <= 1)%nat -> tpend t' = []) /\ ok = true /\
  (forall r s, mfind r (tsrc t) = Some s -> exists os, nosets os /\ (In QStop os -> does (Stop r) steps) /\ evolves r os s e t') /\
  (forall r, mfind r (tsrc t) = None -> at_ r e = []).
Proof.
  induction steps as [|st steps IH]; intros p t ok e t' W P HP H; cbn [loop] in H; destruct (Z.leb_spec p 0) as [LE|LE].
  1,3: inversion H; subst; pose proof (heldN_nonneg (tsrc t')); split; [apply agree_refl|]; do 2 (split; [assumption|]); split; [lia|]; split; [auto|];
      split; [lia|]; split; [reflexivity|]; split; [|reflexivity]; intros r s F; exists []; split; [constructor|]; split; [intros []|apply evolves_nil; exact F].
  1: discriminate.
  destruct (singleStep st t) as [[a t1]|] eqn:E1; [|discriminate]. destruct (collectAll (tsrc t1)) as [b m] eqn:E2.
  destruct (precede_ended _ _ _ _ _ H) as (e0 & HL & ->). clear H.
  destruct (pass_props st t a t1 b m W P E1 E2) as (A & W2 & P2 & N2 & D2 & V2 & Z2).
  destruct (IH (p - Z.of_nat (length b)) _ _ _ _ W2 P2 ltac:(cbn [tsrc withSrc]; lia) HL) as (A' & W' & P' & N' & S' & L' & K' & V' & Z').
  assert (SUB : forall o, In o (tpend (withSrc t1 m)) -> In o (tpend t)).
  { intros o I. rewrite D2 in I. destruct (picked (pick st) (tpend t)) as [[x rest]|] eqn:EP; [|destruct I].
    destruct (picked_spec _ _ _ _ EP) as (_ & _ & _ & _ & Q). apply Q, I. }
  split; [eapply agree_trans; eassumption|]. do 3 (split; [assumption|]). split; [auto|]. split; [|split; [assumption|split]].
  - intros _ L. assert (X : tpend (withSrc t1 m) = []).
    { rewrite D2. destruct (picked (pick st) (tpend t)) as [[x rest]|] eqn:EP; [|reflexivity].
      destruct (picked_spec _ _ _ _ EP) as (_ & _ & Q & _ & _). destruct rest; [reflexivity|cbn [length] in Q; lia]. }
    destruct (tpend t') as [|o l] eqn:ET; [reflexivity|]. exfalso. pose proof (S' o (or_introl eq_refl)) as I. rewrite X in I. destruct I.
  - intros r s F. destruct (V2 r s F) as (mid & M & VM). destruct (V' r _ (proj1 VM)) as (os & NS & ST & VO). cbn [sstate withState] in VO.
    assert (MM : mid = [] \/ mid = [QTrigger]) by tauto.
    exists (((opsOf r (before st) ++ mid ++ opsOf r (after st)) ++ [QGot]) ++ os). split; [|split].
    + apply Forall_app. split; [|exact NS]. apply Forall_app. split; [apply quiet_nosets, pass_ops, MM|repeat constructor].
    + rewrite does_cons_stop. intros I. rewrite !in_app_iff in I. rewrite !(opsOf_stop r).
      destruct I as [[[I|[I|I]]|[I|[]]]|I]; auto; [|discriminate]. destruct MM as [-> | ->]; [destruct I|destruct I as [I|[]]; discriminate].
    + eapply evolves_app; [exact VM|exact VO].
  - intros r F. rewrite at_app, (Z2 r F). apply Z'. exact (shape_none _ _ r (eq_sym (proj1 A)) F).
Qed.

(** *** Rounds *)
Definition idle (t : tx) : Prop := forall r s, mfind r (tsrc t) = Some s -> qframe (sstate s) = None /\ processed (sstate s) = false.
Lemma qinv_step k o q : qinv q -> qinv (snd (qstep k o q)).
Proof.
  intros Q. destruct q as [f p s a]. unfold qinv in *. destruct o, f, p, s, a, k; cbn in *; intros; try congruence; try (specialize (Q eq_refl); discriminate).
Qed.
Lemma qinv_run k os : forall q, qinv q -> qinv (snd (qrun k os q)).
Proof.
  induction os as [|o os IH]; intros q Q; cbn [qrun]; [exact Q|]. pose proof (qinv_step k o q Q) as Q1. destruct (qstep k o q) as [e q1].
  specialize (IH q1 Q1). destruct (qrun k os q1). exact IH.
Qed.
Definition heldIn (q : qsource) : list Z := match qframe q with Some i => [i] | None => [] end.
Lemma qrun_conserve k os : forall q, heldIn q ++ takenIn (fst (qrun k os q)) = collectedIn (fst (qrun k os q)) ++ heldIn (snd (qrun k os q)).
Proof.
  induction os as [|o os IH]; intros q; cbn [qrun]; [cbn; apply app_nil_r|].
  assert (E : heldIn q ++ takenIn (fst (qstep k o q)) = collectedIn (fst (qstep k o q)) ++ heldIn (snd (qstep k o q))).
  { destruct q as [f p s a]. destruct o, f, p, s, a, k; reflexivity. }
  destruct (qstep k o q) as [e q1]. specialize (IH q1). destruct (qrun k os q1) as [e2 q2]. cbn [fst snd] in *.
  rewrite takenIn_app, collectedIn_app, app_assoc, E, <- !app_assoc, IH. reflexivity.
Qed.
Lemma nosets_taken k os : forall q, nosets os -> takenIn (fst (qrun k os q)) = [].
Proof.
  induction os as [|o os IH]; intros q N; cbn [qrun]; [reflexivity|]. inversion N; subst.
  assert (E : takenIn (fst (qstep k o q)) = []) by (destruct q as [f p s a]; destruct o; try contradiction; destruct f, p, s, a, k; reflexivity).
  destruct (qstep k o q) as [e q1]. specialize (IH q1 H2). destruct (qrun k os q1). cbn [fst] in *. rewrite takenIn_app, E. exact IH.
Qed.

Lemma idle_heldN t : msorted (tsrc t) -> idle t -> heldN (tsrc t) = 0.
Proof.
  intros S H. apply heldN_zero. intros r s I. apply (In_mfind (tsrc t) None r s S) in I. exact (proj1 (H r s I)).
Qed.
Lemma held_none t r s : msorted (tsrc t) -> heldN (tsrc t) = 0 -> mfind r (tsrc t) = Some s -> qframe (sstate s) = None.
Proof. intros S H F. rewrite heldN_zero in H. eapply H, mfind_In, F. Qed.
Lemma singleStep_sub st t e t' : wf t -> singleStep st t = Some (e, t') -> (forall o, In o (tpend t') -> In o (tpend t)).
Proof.
  intros W H o I. destruct (singleStep_props _ _ _ _ W H) as (_ & _ & _ & D & _). rewrite D in I.
  destruct (picked (pick st) (tpend t)) as [[x rest]|] eqn:EP; [|destruct I]. destruct (picked_spec _ _ _ _ EP) as (_ & _ & _ & _ & Q). apply Q, I.
Qed.

Lemma round_ended fs steps t ok e t' : wf t -> pok t -> idle t -> doProcessFrame fs steps t = Ended ok e t' ->
  agree t t' /\ wf t' /\ pok t' /\ idle t' /\
  (tpend t = [] -> (length fs <= 1)%nat -> tpend t' = []) /\
  (forall r s, mfind r (tsrc t) = Some s -> exists os, nosets os /\ (In QStop os -> does (Stop r) steps) /\ evolves r (setOps r fs (sstate s) ++ os) s e t') /\
  (forall r, mfind r (tsrc t) = None -> at_ r e = []).
Proof.
  intros W P ID H. unfold doProcessFrame in H. destruct (hand fs t) as [[a n] t1] eqn:E1.
  destruct (hand_props _ _ _ _ _ W P E1) as (A & W1 & P1 & N0 & HN & PS & PL & PZ & V & Ab).
  rewrite (idle_heldN t (wf_sorted _ W) ID) in HN.
  assert (GO : exists b, e = a ++ b /\ agree t1 t' /\ wf t' /\ pok t' /\ heldN (tsrc t') = 0 /\
    (tpend t = [] -> (length fs <= 1)%nat -> tpend t' = []) /\
    (forall r s, mfind r (tsrc t1) = Some s -> exists os, nosets os /\ (In QStop os -> does (Stop r) steps) /\ evolves r os s b t') /\
    (forall r, mfind r (tsrc t1) = None -> at_ r b = [])).
  { destruct (Z.eqb_spec n 0) as [NZ|NZ].
    - destruct steps as [|st steps]; [discriminate|]. destruct (singleStep st t1) as [[b t2]|] eqn:E2; [|discriminate]. inversion H; subst ok e t2. clear H.
      destruct (singleStep_props _ _ _ _ W1 E2) as (A2 & H2 & W2 & D2 & V2). pose proof (singleStep_sub _ _ _ _ W1 E2) as SUB.
      exists b. split; [reflexivity|]. split; [exact A2|]. split; [exact W2|]. split; [eapply pok_agree; eauto|]. split; [lia|]. split; [|split].
      + intros T _. rewrite D2, (PZ NZ), T. reflexivity.
      + intros r s F. destruct (V2 r s F) as (mid & M & VM). assert (MM : mid = [] \/ mid = [QTrigger]) by tauto.
        eexists. split; [apply quiet_nosets, (pass_ops r st mid MM)|]. split; [|exact VM].
        rewrite does_cons_stop. intros I. rewrite !in_app_iff in I. rewrite !(opsOf_stop r).
        destruct I as [I|[I|I]]; auto. destruct MM as [-> | ->]; [destruct I|destruct I as [I|[]]; discriminate].
      + intros r F. exact (singleStep_absent _ _ _ _ r W1 E2 F).
    - destruct (precede_ended _ _ _ _ _ H) as (b & HL & ->). destruct (loop_ended steps n t1 ok b t' W1 P1 ltac:(lia) HL) as (A2 & W2 & P2 & N2 & S2 & L2 & _ & V2 & Z2).
      exists b. split; [reflexivity|]. do 4 (split; [assumption|]). split; [|split; assumption].
      intros T L. apply L2; [lia|]. rewrite T in PL. cbn in PL. lia. }
  destruct GO as (b & -> & A2 & W2 & P2 & H2 & L2 & V2 & Z2).
  assert (EV : forall r s, mfind r (tsrc t) = Some s -> exists os, nosets os /\ (In QStop os -> does (Stop r) steps) /\ evolves r (setOps r fs (sstate s) ++ os) s (a ++ b) t').
  { intros r s F. destruct (V r s F) as [V1 _]. destruct (V2 r _ (proj1 V1)) as (os & O1 & O2 & O3). exists os. do 2 (split; [assumption|]). eapply evolves_app; eassumption. }
  split; [eapply agree_trans; eassumption|]. do 2 (split; [assumption|]). split; [|split; [assumption|split; [exact EV|]]].
  - intros r s' F'. pose proof (held_none t' r s' (wf_sorted _ W2) H2 F') as Q. split; [exact Q|].
    destruct (shape_find _ _ _ _ (proj1 (agree_trans _ _ _ A A2)) F') as (s & F & _). destruct (EV r s F) as (os & _ & _ & [V1 _]).
    rewrite F' in V1. inversion V1; subst s'. cbn [sstate withState] in *. apply qinv_run; [|exact Q]. destruct (ID r s F) as [I1 I2]. intros _. exact I2.
  - intros r F. rewrite at_app, (Ab r F). apply Z2. exact (shape_none _ _ r (eq_sym (proj1 A)) F).
Qed.

(** *** Histories *)
Definition inv (t : tx) : Prop := wf t /\ pok t /\ idle t.
Lemma inv_new : inv newTx.
Proof. repeat split; cbn; try constructor; try contradiction; intros; discriminate. Qed.
Lemma objs_mset m r s x : In x (objs (mset r s m)) -> x = sobj s \/ In x (objs m).
Proof.
  induction m as [|[k y] m IH]; cbn [mset objs map In snd] in *; [intuition|].
  destruct (r =? k); [cbn; intuition|]. destruct (r <? k); [cbn; intuition|]. cbn. intros [H|H]; [auto|]. destruct (IH H); auto.
Qed.
Lemma objs_mset_nodup m r s : NoDup (objs m) -> ~ In (sobj s) (objs m) -> NoDup (objs (mset r s m)).
Proof.
  induction m as [|[k y] m IH]; intros D N; cbn [mset]; [cbn; constructor; [intros []|constructor]|].
  cbn [objs map snd] in D, N. inversion D; subst. destruct (r =? k); [|destruct (r <? k)].
  - cbn. constructor; [intros X; apply N; right; exact X|assumption].
  - cbn. constructor; [exact N|constructor; assumption].
  - cbn. constructor; [|apply IH; [assumption|intros X; apply N; right; exact X]].
    intros X. apply objs_mset in X. destruct X as [X|X]; [apply N; left; exact X|auto].
Qed.
Lemma objs_mdel m r x : In x (objs (mdel r m)) -> In x (objs m).
Proof. induction m as [|[k y] m IH]; cbn; [auto|]. destruct (r =? k); cbn; [auto|]. intros [H|H]; auto. Qed.
Lemma objs_mdel_nodup m r : NoDup (objs m) -> NoDup (objs (mdel r m)).
Proof.
  induction m as [|[k y] m IH]; intros D; cbn; [constructor|]. cbn in D. inversion D; subst. destruct (r =? k); [assumption|].
  cbn. constructor; [intros X; apply objs_mdel in X; auto|auto].
Qed.
Lemma objs_mdel_gone m r s : NoDup (objs m) -> mfind r m = Some s -> ~ In (sobj s) (objs (mdel r m)).
Proof.
  induction m as [|[k y] m IH]; intros D F; cbn in *; [discriminate|]. inversion D; subst. destruct (r =? k) eqn:E.
  - inversion F; subst. assumption.
  - cbn. intros [X|X]; [|exact (IH H2 F X)]. apply H1. rewrite X. apply in_map_iff. exists (r, s). split; [reflexivity|apply mfind_In; exact F].
Qed.
Lemma objs_in m r s : mfind r m = Some s -> In (sobj s) (objs m).
Proof. intros F. apply in_map_iff. exists (r, s). split; [reflexivity|apply mfind_In; exact F]. Qed.

Lemma inv_connect r k t : inv t -> inv (addSource r k t).
Proof.
  intros (W & P & D). unfold addSource. set (s := mkSrc (tnext t) k (tused t <? MAX_TRIGGERS) newQ).
  assert (NF : ~ In (sobj s) (objs (tsrc t))) by (intros X; apply (wf_fresh _ W) in X; cbn in X; lia).
  assert (FD : forall x sx, mfind x (mset r s (tsrc t)) = Some sx -> x = r /\ sx = s \/ mfind x (tsrc t) = Some sx).
  { intros x sx F. destruct (Z.eq_dec x r) as [-> | N]; [rewrite mfind_mset_eq in F; inversion F; auto|rewrite mfind_mset_neq in F by assumption; auto]. }
  split; [|split].
  - constructor; cbn.
    + apply msorted_mset, W.
    + apply objs_mset_nodup; [apply W|exact NF].
    + intros o X. apply objs_mset in X. destruct X as [-> | X]; [cbn; lia|]. apply (wf_fresh _ W) in X. lia.
    + intros o X Y. apply objs_mset in X. destruct X as [-> | X]; [apply (wf_freed _ W) in Y; cbn in Y; lia|exact (wf_live _ W o X Y)].
    + intros o X. apply (wf_freed _ W) in X. lia.
    + apply W.
  - constructor; cbn.
    + intros o X. apply (pok_fresh _ P) in X. lia.
    + intros x sx F T X. destruct (FD x sx F) as [[-> ->]|F']; [apply (pok_fresh _ P) in X; cbn in X; lia|exact (pok_trig _ P x sx F' T X)].
  - intros x sx F. cbn in F. destruct (FD x sx F) as [[-> ->]|F']; [split; reflexivity|exact (D x sx F')].
Qed.
Lemma mfind_mdel_some (A : Type) x r (m : zmap A) v : msorted m -> mfind x (mdel r m) = Some v -> mfind x m = Some v /\ x <> r.
Proof. intros S F. rewrite mfind_mdel in F by exact S. destruct (Z.eqb_spec x r); [discriminate|auto]. Qed.
Lemma inv_disconnect r t : inv t -> inv (closeSource r t).
Proof.
  intros (W & P & D). unfold closeSource. destruct (mfind r (tsrc t)) as [s|] eqn:F; [|split; [exact W|split; [exact P|exact D]]].
  split; [|split].
  - constructor; cbn.
    + apply msorted_mdel, W.
    + apply objs_mdel_nodup, W.
    + intros o X. apply objs_mdel in X. apply (wf_fresh _ W), X.
    + intros o X [<- | Y]; [exact (objs_mdel_gone _ _ _ (wf_objs _ W) F X)|]. apply objs_mdel in X. exact (wf_live _ W o X Y).
    + intros o [<- | X]; [apply (wf_fresh _ W), (objs_in _ r), F|apply (wf_freed _ W), X].
    + apply W.
  - constructor; cbn; [apply P|]. intros x sx F'. apply mfind_mdel_some in F'; [|apply W]. apply P with (r := x), F'.
  - intros x sx F'. cbn in F'. apply mfind_mdel_some in F'; [|apply W]. apply (D x sx), F'.
Qed.
Lemma inv_step o t ok e t' : inv t -> hstep o t = Ended ok e t' -> inv t'.
Proof.
  intros H E. destruct o as [r k|r|fs steps]; cbn [hstep] in E.
  - inversion E; subst. apply inv_connect, H.
  - inversion E; subst. apply inv_disconnect, H.
  - destruct H as (W & P & D). destruct (round_ended _ _ _ _ _ _ W P D E) as (_ & W' & P' & D' & _). split; [exact W'|split; [exact P'|exact D']].
Qed.
Lemma hrun_cons o os t e t' : hrun (o :: os) t = Some (e, t') -> exists ok a b t1, hstep o t = Ended ok a t1 /\ hrun os t1 = Some (b, t') /\ e = a ++ b.
Proof.
  cbn [hrun]. destruct (hstep o t) as [ok a t1| |]; try discriminate. destruct (hrun os t1) as [[b t2]|] eqn:E; [|discriminate].
  intros H. inversion H; subst. exists ok, a, b, t1. auto.
Qed.
Lemma inv_run os : forall t e t', inv t -> hrun os t = Some (e, t') -> inv t'.
Proof.
  induction os as [|o os IH]; intros t e t' H E; [inversion E; subst; exact H|].
  destruct (hrun_cons _ _ _ _ _ E) as (ok & a & b & t1 & E1 & E2 & _). eapply IH; [|exact E2]. eapply inv_step; eauto.
Qed.
Lemma hrun_app a : forall b t e t', hrun (a ++ b) t = Some (e, t') <-> exists e1 t1 e2, hrun a t = Some (e1, t1) /\ hrun b t1 = Some (e2, t') /\ e = e1 ++ e2.
Proof.
  induction a as [|o a IH]; intros b t e t'; cbn [app].
  - split; [intros H; exists [], t, e; auto|intros (e1 & t1 & e2 & H & H2 & ->); inversion H; subst; exact H2].
  - split.
    + intros H. destruct (hrun_cons _ _ _ _ _ H) as (ok & x & y & t1 & E1 & E2 & ->). apply IH in E2. destruct E2 as (e1 & t2 & e2 & E2 & E3 & ->).
      exists (x ++ e1), t2, e2. cbn [hrun]. rewrite E1, E2. rewrite app_assoc. auto.
    + intros (e1 & t1 & e2 & H & H2 & ->). destruct (hrun_cons _ _ _ _ _ H) as (ok & x & y & t3 & E1 & E2 & ->).
      cbn [hrun]. rewrite E1. assert (X : hrun (a ++ b) t3 = Some (y ++ e2, t')) by (apply IH; exists y, t1, e2; auto). rewrite X, app_assoc. reflexivity.
Qed.

(** *** Waiting *)
Lemma got_keeps k q : qframe (snd (qstep k QGot q)) <> None -> ready q = false /\ snd (qstep k QGot q) = q.
Proof. destruct q as [f p s a]. unfold ready. cbn. destruct p, s, f; cbn; intros H; try congruence; split; reflexivity. Qed.
Lemma does_cons e st steps : does e (st :: steps) <-> In e (before st) \/ In e (after st) \/ does e steps.
Proof.
  unfold does. split.
  - intros (x & [<- | I] & H); [tauto|right; right; eauto].
  - intros [H|[H|(x & I & H)]]; [exists st|exists st|exists x]; cbn; tauto.
Qed.
Lemma loop_held steps : forall p t e t', wf t -> pok t -> p = heldN (tsrc t) -> loop steps p t = Waiting e t' -> 0 < heldN (tsrc t').
Proof.
  induction steps as [|st steps IH]; intros p t e t' W P HP H; cbn [loop] in H; destruct (Z.leb_spec p 0) as [LE|LE]; try discriminate.
  - inversion H; subst. lia.
  - destruct (singleStep st t) as [[a t1]|] eqn:E1; [|discriminate]. destruct (collectAll (tsrc t1)) as [b m] eqn:E2.
    destruct (precede_waiting _ _ _ _ H) as (e0 & HL & ->). destruct (pass_props st t a t1 b m W P E1 E2) as (A & W2 & P2 & N2 & D2 & V2 & Z2).
    eapply (IH (p - Z.of_nat (length b))); [exact W2|exact P2| |exact HL]. cbn [tsrc withSrc]. lia.
Qed.
Lemma loop_waits steps : forall p t e t' r s', wf t -> pok t -> loop steps p t = Waiting e t' -> mfind r (tsrc t') = Some s' -> qframe (sstate s') <> None ->
  exists s, mfind r (tsrc t) = Some s /\ qframe (sstate s) <> None /\ (steps <> [] -> ready (sstate s) = false) /\
    ~ does (Ask r) steps /\ ~ does (Stop r) steps /\
    (awaiting (sstate s) = true -> In (sobj s) (tpend t) -> (length steps < length (tpend t))%nat).
Proof.
  induction steps as [|st steps IH]; intros p t e t' r s' W P H F Q; cbn [loop] in H; destruct (Z.leb_spec p 0) as [LE|LE]; try discriminate.
  - inversion H; subst. exists s'. do 2 (split; [assumption|]). split; [congruence|].
    split; [intros (x & [] & _)|]. split; [intros (x & [] & _)|]. intros _ I. destruct (tpend t'); [destruct I|cbn; lia].
  - destruct (singleStep st t) as [[a t1]|] eqn:E1; [|discriminate]. destruct (collectAll (tsrc t1)) as [b m] eqn:E2.
    destruct (precede_waiting _ _ _ _ H) as (e0 & HL & ->). destruct (pass_props st t a t1 b m W P E1 E2) as (A & W2 & P2 & N2 & D2 & V2 & Z2).
    destruct (IH _ _ _ _ r s' W2 P2 HL F Q) as (s2 & F2 & Q2 & R2 & NA & NS & LP).
    destruct (shape_find _ _ _ _ (proj1 A) F2) as (s & Fs & O & _). exists s. split; [exact Fs|].
    destruct (V2 r s Fs) as (mid & M & [VM _]). assert (MM : mid = [] \/ mid = [QTrigger]) by tauto.
    pose proof (pass_ops r st mid MM) as QU. set (ops := opsOf r (before st) ++ mid ++ opsOf r (after st)) in *.
    rewrite qrun_app in VM. destruct (qrun (skind s) ops (sstate s)) as [x q1] eqn:E3. cbn [qrun] in VM. destruct (qstep (skind s) QGot q1) as [y q2] eqn:E4. cbn [snd] in VM.
    rewrite F2 in VM. inversion VM; subst s2. clear VM. cbn [sstate withState sobj] in *.
    pose proof (got_keeps (skind s) q1) as G. rewrite E4 in G. cbn [snd] in G. destruct (G Q2) as [RN ->]. clear G.
    assert (Q0 : qframe (sstate s) <> None).
    { pose proof (qrun_frame (skind s) ops (sstate s) QU) as X. rewrite E3 in X. cbn [snd] in X. congruence. }
    assert (NR : ready (snd (qrun (skind s) ops (sstate s))) = false) by (rewrite E3; exact RN).
    split; [exact Q0|]. split; [|split; [|split]].
    + intros _. destruct (ready (sstate s)) eqn:R; [|reflexivity]. rewrite (ready_kept _ ops _ QU Q0 R) in NR. discriminate.
    + rewrite does_cons. intros [I|[I|I]]; [| |auto]; apply opsOf_ask in I; rewrite (ask_ready _ ops _ QU Q0) in NR; try discriminate; left; apply in_or_app; [left; exact I|right; apply in_or_app; right; exact I].
    + rewrite does_cons. intros [I|[I|I]]; [| |auto]; apply opsOf_stop in I; rewrite (ask_ready _ ops _ QU Q0) in NR; try discriminate; right; apply in_or_app; [left; exact I|right; apply in_or_app; right; exact I].
    + intros AW I. destruct (picked (pick st) (tpend t)) as [[o rest]|] eqn:EP; [|apply picked_none in EP; rewrite EP in I; destruct I].
      destruct (picked_spec _ _ _ _ EP) as (_ & C1 & C2 & _). destruct (C1 _ I) as [C|C].
      * exfalso. destruct M as [[_ M]|[-> M]]; [apply M; exists rest; rewrite C; exact EP|].
        rewrite (trigger_ready _ ops _ QU Q0 AW) in NR; [discriminate|]. apply in_or_app. right. left. reflexivity.
      * destruct (awaiting_kept (skind s) ops (sstate s) QU Q0 AW) as [X|X]; [congruence|]. rewrite E3 in X. cbn [snd] in X.
        rewrite D2 in LP. specialize (LP X C). cbn [length]. lia.
Qed.

Lemma round_waits fs steps t e t' : inv t -> steps <> [] -> doProcessFrame fs steps t = Waiting e t' ->
  exists r f s, In (r, f) fs /\ mfind r (tsrc t) = Some s /\ stopped (sstate s) = false /\ ~ does (Ask r) steps /\ ~ does (Stop r) steps /\
    (awaiting (sstate s) = true -> strig s = true -> (length steps < length (tpend t) + length fs)%nat).
Proof.
  intros (W & P & ID) NE H. unfold doProcessFrame in H. destruct (hand fs t) as [[a n] t1] eqn:E1.
  destruct (hand_props _ _ _ _ _ W P E1) as (A & W1 & P1 & N0 & HN & PS & PL & PZ & V & Ab).
  rewrite (idle_heldN t (wf_sorted _ W) ID) in HN. destruct (Z.eqb_spec n 0) as [NZ|NZ].
  { destruct steps as [|st steps]; [congruence|]. destruct (singleStep st t1) as [[b t2]|]; discriminate. }
  destruct (precede_waiting _ _ _ _ H) as (b & HL & ->). pose proof (loop_held steps n t1 b t' W1 P1 ltac:(lia) HL) as HH.
  assert (X : exists r s', mfind r (tsrc t') = Some s' /\ qframe (sstate s') <> None).
  { assert (S' : msorted (tsrc t')).
    { clear -W1 P1 HL. revert n t1 b W1 P1 HL. induction steps as [|st steps IH]; intros n t1 b W1 P1 HL; cbn [loop] in HL; destruct (n <=? 0); try discriminate.
      - inversion HL; subst. apply W1.
      - destruct (singleStep st t1) as [[a1 t2]|] eqn:E1; [|discriminate]. destruct (collectAll (tsrc t2)) as [b1 m] eqn:E2.
        destruct (precede_waiting _ _ _ _ HL) as (e0 & HL' & ->). destruct (pass_props st t1 a1 t2 b1 m W1 P1 E1 E2) as (A & W2 & P2 & _). exact (IH _ _ _ W2 P2 HL'). }
    clear -HH S'. unfold heldN in HH. destruct (filter _ (tsrc t')) as [|[r s'] l] eqn:E; [cbn in HH; lia|].
    assert (I : In (r, s') (filter (fun x : Z * source => match qframe (sstate (snd x)) with Some _ => true | None => false end) (tsrc t'))) by (rewrite E; left; reflexivity).
    apply filter_In in I. destruct I as [I1 I2]. exists r, s'. split; [exact (In_mfind _ None _ _ S' I1)|]. cbn in I2. destruct (qframe (sstate s')); congruence. }
  destruct X as (r & s' & F' & Q'). destruct (loop_waits steps n t1 b t' r s' W1 P1 HL F' Q') as (s1 & F1 & Q1 & R1 & NA & NS & LP).
  destruct (shape_find _ _ _ _ (proj1 A) F1) as (s & F & O & K & T). destruct (V r s F) as [[V1 _] V2].
  rewrite F1 in V1. inversion V1; subst s1. cbn [sstate withState sobj] in *. destruct (ID r s F) as [I1 I2].
  unfold setOps in *. rewrite I1 in *. destruct (firstOf r fs) as [f|] eqn:FO; [|cbn in Q1; congruence].
  exists r, f, s. split. { clear -FO. induction fs as [|[x g] fs IH]; cbn in FO; [discriminate|]. destruct (Z.eqb_spec x r) as [-> | N]; [inversion FO; left; reflexivity|right; auto]. }
  split; [exact F|]. cbn [qrun qstep snd] in *. rewrite I1 in *. cbn in R1, LP. unfold ready in R1. cbn in R1. specialize (R1 NE). apply orb_false_iff in R1.
  split; [apply R1|]. do 2 (split; [assumption|]). intros AW TR. specialize (LP AW (V2 ltac:(discriminate) TR)). lia.
Qed.

(** *** A source that stays silent *)
Lemma silent_ops r st : ~ In (Ask r) (before st) -> ~ In (Stop r) (before st) -> ~ In (Ask r) (after st) -> ~ In (Stop r) (after st) -> opsOf r (before st) = [] /\ opsOf r (after st) = [].
Proof.
  assert (X : forall es, ~ In (Ask r) es -> ~ In (Stop r) es -> opsOf r es = []).
  { induction es as [|[x|x] es IH]; intros N1 N2; cbn; [reflexivity| |]; destruct (Z.eqb_spec x r) as [-> | N];
      try (exfalso; first [apply N1; left; reflexivity|apply N2; left; reflexivity]); apply IH; intros H; first [apply N1; right; exact H|apply N2; right; exact H]. }
  intros. split; apply X; assumption.
Qed.
Lemma loop_blocked steps : forall p t ok e t' r s, wf t -> pok t -> p = heldN (tsrc t) -> mfind r (tsrc t) = Some s -> qframe (sstate s) <> None -> ready (sstate s) = false ->
  awaiting (sstate s) = false \/ ~ In (sobj s) (tpend t) -> silent r steps -> loop steps p t <> Ended ok e t'.
Proof.
  induction steps as [|st steps IH]; intros p t ok e t' r s W P HP F Q R B SI H; cbn [loop] in H; destruct (Z.leb_spec p 0) as [LE|LE]; try discriminate.
  1,2: pose proof (heldN_nonneg (tsrc t)); apply Q; eapply held_none; [apply W|lia|exact F].
  destruct (singleStep st t) as [[a t1]|] eqn:E1; [|discriminate]. destruct (collectAll (tsrc t1)) as [b m] eqn:E2.
  destruct (precede_ended _ _ _ _ _ H) as (e0 & HL & ->). destruct (pass_props st t a t1 b m W P E1 E2) as (A & W2 & P2 & N2 & D2 & V2 & Z2).
  destruct SI as [SA SS]. rewrite does_cons in SA, SS. destruct (silent_ops r st) as [O1 O2]; try tauto.
  destruct (V2 r s F) as (mid & M & [VM _]). rewrite O1, O2, app_nil_r in VM. cbn [app] in VM.
  assert (X : snd (qrun (skind s) (mid ++ [QGot]) (sstate s)) = sstate s).
  { unfold ready in R. apply orb_false_iff in R. destruct R as [R1 R2]. destruct (sstate s) as [f pr sp aw] eqn:ES. cbn in Q, R1, R2, B. subst pr sp.
    destruct M as [[-> _]|[-> [rest HR]]]; [reflexivity|]. destruct aw; [|reflexivity]. exfalso. destruct B as [B|B]; [discriminate|]. apply B.
    exact (proj1 (picked_spec _ _ _ _ HR)). }
  rewrite X, withState_id in VM. eapply (IH (p - Z.of_nat (length b)) (withSrc t1 m) ok e0 t' r s W2 P2); try eassumption; [cbn [tsrc withSrc]; lia| |split; tauto].
  destruct B as [B|B]; [left; exact B|right]. rewrite D2. intros I. apply B. destruct (picked (pick st) (tpend t)) as [[o rest]|] eqn:EP; [|destruct I].
  destruct (picked_spec _ _ _ _ EP) as (_ & _ & _ & _ & SU). apply SU, I.
Qed.
Lemma firstOf_in r f fs : In (r, f) fs -> exists g, firstOf r fs = Some g.
Proof.
  induction fs as [|[x g] fs IH]; intros []; cbn.
  - inversion H; subst. rewrite Z.eqb_refl. eauto.
  - destruct (x =? r); eauto.
Qed.
Lemma firstOf_nodup r f fs : NoDup (map fst fs) -> In (r, f) fs -> firstOf r fs = Some f.
Proof.
  induction fs as [|[x g] fs IH]; intros N []; cbn in *; inversion N; subst.
  - inversion H; subst. rewrite Z.eqb_refl. reflexivity.
  - destruct (Z.eqb_spec x r) as [-> | D]; [|auto]. exfalso. apply H2. apply in_map_iff. exists (r, f). auto.
Qed.
Lemma firstOf_none r fs : (forall f, ~ In (r, f) fs) -> firstOf r fs = None.
Proof.
  induction fs as [|[x g] fs IH]; intros N; cbn; [reflexivity|]. destruct (Z.eqb_spec x r) as [-> | D]; [exfalso; apply (N g); left; reflexivity|].
  apply IH. intros f I. apply (N f). right. exact I.
Qed.
Lemma round_blocked fs steps t ok e t' r s f : inv t -> In (r, f) fs -> mfind r (tsrc t) = Some s -> stopped (sstate s) = false ->
  awaiting (sstate s) = false \/ strig s = false -> silent r steps -> doProcessFrame fs steps t <> Ended ok e t'.
Proof.
  intros (W & P & ID) I F ST B SI H. unfold doProcessFrame in H. destruct (hand fs t) as [[a n] t1] eqn:E1.
  destruct (hand_props _ _ _ _ _ W P E1) as (A & W1 & P1 & N0 & HN & PS & PL & PZ & V & Ab).
  rewrite (idle_heldN t (wf_sorted _ W) ID) in HN. destruct (V r s F) as [[V1 _] V2]. destruct (ID r s F) as [I1 I2].
  destruct (firstOf_in r f fs I) as [g FO]. unfold setOps in V1. rewrite I1, FO in V1. cbn [qrun qstep snd] in V1. rewrite I1 in V1. cbn [snd] in V1.
  destruct (Z.eqb_spec n 0) as [NZ|NZ].
  - pose proof (held_none t1 r _ (wf_sorted _ W1) ltac:(lia) V1) as X. discriminate.
  - destruct (precede_ended _ _ _ _ _ H) as (e0 & HL & ->). revert HL.
    eapply (loop_blocked steps n t1 ok e0 t' r); try eassumption; [lia|discriminate|unfold ready; cbn; rewrite I2, ST; reflexivity|].
    destruct B as [B|B]; [left; exact B|right]. apply (pok_trig _ P1 r _ V1). exact B.
Qed.

(** *** Use of destroyed sources *)
Definition undangling (t : tx) : Prop := forall o, In o (tpend t) -> ~ In o (tfreed t).
Lemma singleStep_alive st t : msorted (tsrc t) -> undangling t -> singleStep st t <> None.
Proof.
  intros S U H. unfold singleStep in H. destruct (sinksDo (before st) t) as [a t1] eqn:E1. destruct (sinksDo_props _ _ _ _ S E1) as (A & P1 & _).
  rewrite P1 in H. destruct (picked (pick st) (tpend t)) as [[o rest]|] eqn:EP.
  - unfold handle in H. cbn [tfreed tsrc] in H. destruct (existsb (Z.eqb o) (tfreed t1)) eqn:EE.
    + apply existsb_In in EE. destruct A as (_ & AF & _). rewrite AF in EE. revert EE. apply U. exact (proj1 (picked_spec _ _ _ _ EP)).
    + destruct (inputOf o (tsrc t1)) as [x|].
      * destruct (atSource x QTrigger _) as [b t2]. destruct (sinksDo (after st) t2). discriminate.
      * destruct (sinksDo (after st) _). discriminate.
  - destruct (sinksDo (after st) t1). discriminate.
Qed.
Lemma und_sub t t' : undangling t -> agree t t' -> (forall o, In o (tpend t') -> In o (tpend t)) -> undangling t'.
Proof. intros U (_ & F & _) S o I. rewrite F. apply U, S, I. Qed.
Lemma loop_alive steps : forall p t, wf t -> pok t -> undangling t -> loop steps p t <> Dead.
Proof.
  induction steps as [|st steps IH]; intros p t W P U H; cbn [loop] in H; destruct (p <=? 0); try discriminate.
  destruct (singleStep st t) as [[a t1]|] eqn:E1; [|exact (singleStep_alive st t (wf_sorted _ W) U E1)]. destruct (collectAll (tsrc t1)) as [b m] eqn:E2.
  apply precede_dead in H. destruct (pass_props st t a t1 b m W P E1 E2) as (A & W2 & P2 & _). revert H. apply IH; [exact W2|exact P2|].
  eapply und_sub; [exact U|exact A|]. exact (singleStep_sub _ _ _ _ W E1).
Qed.
Lemma hand_und fs : forall t a n t', wf t -> pok t -> undangling t -> hand fs t = (a, n, t') -> undangling t'.
Proof.
  induction fs as [|[x f] fs IH]; intros t a n t' W P U H; cbn [hand] in H; [inversion H; subst; exact U|].
  destruct (mfind x (tsrc t)) as [sx|] eqn:F; [|exact (IH _ _ _ _ W P U H)]. destruct (qframe (sstate sx)); [exact (IH _ _ _ _ W P U H)|].
  destruct (atSource x (QSet f) t) as [b t1] eqn:E1. destruct (hand fs (signal sx t1)) as [[c m] t2] eqn:E2. inversion H; subst.
  destruct (atSource_agree _ _ _ _ _ (wf_sorted _ W) E1) as [A1 P1].
  assert (W1 : wf t1) by (eapply wf_agree; eauto; rewrite P1; apply W). assert (K1 : pok t1) by (eapply pok_agree; eauto; rewrite P1; auto).
  pose proof (atSource_evolves _ _ _ _ _ x sx E1 F) as [VX _].
  pose proof (signal_props x _ t1 W1 K1 VX) as (A2 & T2 & W2 & K2 & S1 & S2 & S3 & S4). cbn [sobj withState] in S4.
  refine (IH _ _ _ _ W2 K2 _ E2). intros o I. destruct A2 as (_ & AF & _). intros Y. assert (Y1 : In o (tfreed t1)) by (rewrite <- AF; exact Y). revert Y1. clear Y.
  destruct (S4 o I) as [J| ->]; [destruct A1 as (_ & AF1 & _); rewrite AF1; apply U; rewrite <- P1; exact J|].
  apply (wf_live _ W1). exact (objs_in _ _ _ VX).
Qed.
Lemma round_alive fs steps t : inv t -> undangling t -> doProcessFrame fs steps t <> Dead /\ forall ok e t', doProcessFrame fs steps t = Ended ok e t' -> undangling t'.
Proof.
  intros (W & P & ID) U. unfold doProcessFrame. destruct (hand fs t) as [[a n] t1] eqn:E1.
  destruct (hand_props _ _ _ _ _ W P E1) as (A & W1 & P1 & N0 & HN & _). rewrite (idle_heldN t (wf_sorted _ W) ID) in HN.
  pose proof (hand_und fs t a n t1 W P U E1) as U1. destruct (Z.eqb_spec n 0) as [NZ|NZ].
  - destruct steps as [|st steps]; [split; [discriminate|intros; discriminate]|]. destruct (singleStep st t1) as [[b t2]|] eqn:E2; [|exfalso; exact (singleStep_alive st t1 (wf_sorted _ W1) U1 E2)].
    split; [discriminate|]. intros ok e t' H. inversion H; subst. destruct (singleStep_props _ _ _ _ W1 E2) as (A2 & _). eapply und_sub; [exact U1|exact A2|exact (singleStep_sub _ _ _ _ W1 E2)].
  - split; [intros H; apply precede_dead in H; revert H; apply loop_alive; assumption|].
    intros ok e t' H. destruct (precede_ended _ _ _ _ _ H) as (e0 & HL & ->). destruct (loop_ended steps n t1 ok e0 t' W1 P1 ltac:(lia) HL) as (A2 & _ & _ & _ & S2 & _). eapply und_sub; eassumption.
Qed.

Lemma und_run os : forall t e t', inv t -> undangling t ->
  (forall a r b e1 t1 s, os = a ++ Disconnect r :: b -> hrun a t = Some (e1, t1) -> mfind r (tsrc t1) = Some s -> ~ In (sobj s) (tpend t1)) ->
  hrun os t = Some (e, t') -> undangling t'.
Proof.
  induction os as [|o os IH]; intros t e t' V U C H; [inversion H; subst; exact U|].
  destruct (hrun_cons _ _ _ _ _ H) as (ok & a & b & t1 & E1 & E2 & _). pose proof (inv_step _ _ _ _ _ V E1) as V1.
  refine (IH t1 b t' V1 _ _ E2).
  - destruct o as [r k|r|fs steps]; cbn [hstep] in E1.
    + inversion E1; subst. intros o I J. cbn in *. exact (U o I J).
    + inversion E1; subst. unfold closeSource. destruct (mfind r (tsrc t)) as [s|] eqn:F; [|exact U].
      intros o I [<- | J]; cbn in I; [|exact (U o I J)]. exact (C [] r os [] t s eq_refl eq_refl F I).
    + exact (proj2 (round_alive fs steps t V U) ok a t1 E1).
  - intros a0 r b0 e1 t2 s -> H2 F. apply (C (o :: a0) r b0 (a ++ e1) t2 s eq_refl); [|exact F]. cbn [hrun]. rewrite E1, H2. reflexivity.
Qed.
Lemma und_new : undangling newTx.
Proof. intros o []. Qed.

Lemma one_pend os : forall t e t', inv t -> tpend t = [] -> oneByOne os -> hrun os t = Some (e, t') -> tpend t' = [].
Proof.
  induction os as [|o os IH]; intros t e t' V N C H; [inversion H; subst; exact N|].
  destruct (hrun_cons _ _ _ _ _ H) as (ok & a & b & t1 & E1 & E2 & _). pose proof (inv_step _ _ _ _ _ V E1) as V1.
  refine (IH t1 b t' V1 _ _ E2); [|intros fs steps I; apply (C fs steps); right; exact I].
  destruct o as [r k|r|fs steps]; cbn [hstep] in E1.
  - inversion E1; subst. exact N.
  - inversion E1; subst. unfold closeSource. destruct (mfind r (tsrc t)); exact N.
  - destruct V as (W & P & D). destruct (round_ended _ _ _ _ _ _ W P D E1) as (_ & _ & _ & _ & L & _). apply L; [exact N|]. apply (C fs steps). left. reflexivity.
Qed.

(** *** Triggers *)
Lemma tused_step o t ok e t' : inv t -> hstep o t = Ended ok e t' ->
  tused t' = match o with Connect _ _ => if tused t <? MAX_TRIGGERS then tused t + 1 else tused t | _ => tused t end.
Proof.
  intros V H. destruct o as [r k|r|fs steps]; cbn [hstep] in H.
  - inversion H; subst. reflexivity.
  - inversion H; subst. unfold closeSource. destruct (mfind r (tsrc t)); reflexivity.
  - destruct V as (W & P & D). destruct (round_ended _ _ _ _ _ _ W P D H) as ((_ & _ & U & _) & _). exact U.
Qed.
Definition isConnect (o : op) : bool := match o with Connect _ _ => true | _ => false end.
Lemma connects_cons o os : connects (o :: os) = (if isConnect o then 1 else 0) + connects os.
Proof. unfold connects. cbn [filter]. destruct o; cbn [isConnect length]; lia. Qed.
Lemma connects_nonneg os : 0 <= connects os.
Proof. unfold connects. lia. Qed.
Lemma tused_run os : forall t e t', inv t -> 0 <= tused t <= 32 -> hrun os t = Some (e, t') -> tused t' = Z.min 32 (tused t + connects os).
Proof.
  induction os as [|o os IH]; intros t e t' V B H; [inversion H; subst; change (connects []) with 0; lia|].
  destruct (hrun_cons _ _ _ _ _ H) as (ok & a & b & t1 & E1 & E2 & _). pose proof (tused_step _ _ _ _ _ V E1) as T. pose proof (connects_nonneg os).
  unfold MAX_TRIGGERS in T. rewrite (IH t1 b t' (inv_step _ _ _ _ _ V E1)); [|destruct o; destruct (Z.ltb_spec (tused t) 32); lia|exact E2].
  rewrite connects_cons. destruct o; cbn [isConnect]; destruct (Z.ltb_spec (tused t) 32); lia.
Qed.
Lemma trig_run os : forall t e t', inv t -> 0 <= tused t -> tused t + connects os <= 32 -> (forall r s, mfind r (tsrc t) = Some s -> strig s = true) ->
  hrun os t = Some (e, t') -> forall r s, mfind r (tsrc t') = Some s -> strig s = true.
Proof.
  induction os as [|o os IH]; intros t e t' V B C T H; [inversion H; subst; exact T|].
  destruct (hrun_cons _ _ _ _ _ H) as (ok & a & b & t1 & E1 & E2 & _). pose proof (tused_step _ _ _ _ _ V E1) as U. pose proof (connects_nonneg os).
  rewrite connects_cons in C. unfold MAX_TRIGGERS in U.
  refine (IH t1 b t' (inv_step _ _ _ _ _ V E1) _ _ _ E2).
  - destruct o; cbn [isConnect] in *; destruct (Z.ltb_spec (tused t) 32); lia.
  - destruct o; cbn [isConnect] in *; destruct (Z.ltb_spec (tused t) 32); lia.
  - destruct o as [r k|r|fs steps]; cbn [hstep isConnect] in *.
    + inversion E1; subst. intros x s F. unfold addSource in F. cbn [tsrc] in F. destruct (Z.eq_dec x r) as [-> | N].
      * rewrite mfind_mset_eq in F. inversion F; subst. cbn [strig]. apply Z.ltb_lt. unfold MAX_TRIGGERS. lia.
      * rewrite mfind_mset_neq in F by assumption. exact (T x s F).
    + inversion E1; subst. intros x s F. unfold closeSource in F. destruct (mfind r (tsrc t)); [|exact (T x s F)]. cbn in F.
      apply mfind_mdel_some in F; [|apply V]. exact (T x s (proj1 F)).
    + destruct V as (W & P & D). destruct (round_ended _ _ _ _ _ _ W P D E1) as ((SH & _) & _). intros x s F.
      destruct (shape_find _ _ _ _ SH F) as (s' & F' & _ & _ & T'). rewrite <- T'. exact (T x s' F').
Qed.

(** *** What a round does to the frames of an input *)
Lemma setOps_taken k r fs q os : qframe q = None -> nosets os -> takenIn (fst (qrun k (setOps r fs q ++ os) q)) = match firstOf r fs with Some f => [f] | None => [] end.
Proof.
  intros Q N. unfold setOps. rewrite Q. rewrite qrun_app. destruct (firstOf r fs) as [f|].
  - cbn [qrun qstep]. rewrite Q. pose proof (nosets_taken k os (mkQ (Some f) (processed q) (stopped q) (awaiting q)) N) as X. destruct (qrun k os _) as [e q2]. cbn [fst app] in *.
    change (f :: takenIn e = [f]). rewrite X. reflexivity.
  - cbn [qrun]. pose proof (nosets_taken k os q N) as X. destruct (qrun k os q). exact X.
Qed.
Lemma round_frames fs steps t ok e t' : inv t -> doProcessFrame fs steps t = Ended ok e t' ->
  forall r, collectedIn (at_ r e) = takenIn (at_ r e) /\
    takenIn (at_ r e) = match mfind r (tsrc t), firstOf r fs with Some _, Some f => [f] | _, _ => [] end.
Proof.
  intros (W & P & D) H r. destruct (round_ended _ _ _ _ _ _ W P D H) as (A & W' & P' & D' & _ & V & Z0).
  destruct (mfind r (tsrc t)) as [s|] eqn:F; [|rewrite (Z0 r F); split; reflexivity].
  destruct (V r s F) as (os & NS & _ & [V1 V2]). destruct (D r s F) as [I1 I2]. rewrite V2.
  pose proof (qrun_conserve (skind s) (setOps r fs (sstate s) ++ os) (sstate s)) as C. destruct (D' r _ V1) as [J1 _]. cbn [sstate withState] in J1.
  unfold heldIn in C. rewrite I1, J1, app_nil_r in C. cbn [app] in C. split; [symmetry; exact C|]. apply setOps_taken; assumption.
Qed.
Lemma plain_patient os : forall q, patient Plain os q.
Proof. induction os as [|o l IH]; intros q; cbn [patient]; [exact I|]. split; [discriminate|apply IH]. Qed.
Lemma round_delivered fs steps t ok e t' r s : inv t -> doProcessFrame fs steps t = Ended ok e t' -> mfind r (tsrc t) = Some s ->
  (skind s = Plain -> subseq (deliveredIn (at_ r e)) (takenIn (at_ r e))) /\
  (stopped (sstate s) = false -> ~ does (Stop r) steps -> subseq (collectedIn (at_ r e)) (deliveredIn (at_ r e)) /\
     forall e1 f e2, at_ r e = e1 ++ Collected f :: e2 -> In (Delivered f) e1).
Proof.
  intros (W & P & D) H F. destruct (round_ended _ _ _ _ _ _ W P D H) as (A & W' & P' & D' & _ & V & Z0).
  destruct (V r s F) as (os & NS & ST & [V1 V2]). destruct (D r s F) as [I1 I2]. assert (QI : qinv (sstate s)) by (intros _; exact I2). rewrite V2. split.
  - intros K. rewrite K in *. pose proof (qrun_once Plain (setOps r fs (sstate s) ++ os) (sstate s) QI) as O.
    unfold waiting in O. rewrite I1 in O. apply O; [intros; discriminate|].
    apply plain_patient.
  - intros PL NS'. assert (NQ : ~ In QStop (setOps r fs (sstate s) ++ os)).
    { intros I. apply in_app_or in I. destruct I as [I|I]; [|exact (NS' (ST I))]. unfold setOps in I. destruct (qframe (sstate s)), (firstOf r fs); cbn in I; try contradiction. destruct I as [I|[]]; discriminate. }
    split.
    + pose proof (qrun_kept (skind s) _ (sstate s) QI NQ PL) as K. unfold heldDone in K. rewrite I1 in K. exact K.
    + intros e1 f e2 E. destruct (delivered_first (skind s) _ (sstate s) e1 f e2 QI NQ PL E) as [X|X]; [|exact X]. unfold heldDone in X. rewrite I1 in X. destruct X.
Qed.
Lemma subseq_length (A : Type) (a b : list A) : subseq a b -> (length a <= length b)%nat.
Proof. induction 1; cbn; lia. Qed.
Lemma subseq_eq (A : Type) (a b : list A) : subseq a b -> length a = length b -> a = b.
Proof.
  induction 1; intros L; cbn in L; [reflexivity| |f_equal; apply IHsubseq; lia]. apply subseq_length in H. lia.
Qed.
Lemma subseq_both (A : Type) (a b : list A) : subseq a b -> subseq b a -> a = b.
Proof. intros X Y. apply subseq_eq; [exact X|]. apply subseq_length in X, Y. lia. Qed.
Lemma subseq_app (A : Type) (a b c d : list A) : subseq a b -> subseq c d -> subseq (a ++ c) (b ++ d).
Proof. induction 1; intros S; cbn; [exact S|apply sub_skip; auto|apply sub_take; auto]. Qed.

Lemma run_frames os : forall t e t' r, inv t -> hrun os t = Some (e, t') -> collectedIn (at_ r e) = takenIn (at_ r e).
Proof.
  induction os as [|o os IH]; intros t e t' r V H; [inversion H; subst; reflexivity|].
  destruct (hrun_cons _ _ _ _ _ H) as (ok & a & b & t1 & E1 & E2 & ->). rewrite at_app, collectedIn_app, takenIn_app, (IH t1 b t' r (inv_step _ _ _ _ _ V E1) E2).
  f_equal. destruct o as [x k|x|fs steps]; cbn [hstep] in E1; try (inversion E1; subst; reflexivity). exact (proj1 (round_frames _ _ _ _ _ _ V E1 r)).
Qed.
Lemma run_once os : forall t e t' r, inv t -> (forall s, mfind r (tsrc t) = Some s -> skind s = Plain) -> plain r os -> hrun os t = Some (e, t') ->
  subseq (deliveredIn (at_ r e)) (takenIn (at_ r e)).
Proof.
  induction os as [|o os IH]; intros t e t' r V K PL H; [inversion H; subst; constructor|].
  destruct (hrun_cons _ _ _ _ _ H) as (ok & a & b & t1 & E1 & E2 & ->). rewrite at_app, deliveredIn_app, takenIn_app. apply subseq_app.
  - destruct o as [x k|x|fs steps]; cbn [hstep] in E1; try (inversion E1; subst; constructor).
    destruct (mfind r (tsrc t)) as [s|] eqn:F.
    + apply (proj1 (round_delivered _ _ _ _ _ _ r s V E1 F)). apply K. reflexivity.
    + destruct V as (W & P & D). destruct (round_ended _ _ _ _ _ _ W P D E1) as (_ & _ & _ & _ & _ & _ & Z0). rewrite (Z0 r F). constructor.
  - refine (IH t1 b t' r (inv_step _ _ _ _ _ V E1) _ _ E2); [|intros k I; apply PL; right; exact I].
    destruct o as [x k|x|fs steps]; cbn [hstep] in E1.
    + inversion E1; subst. intros s F. cbn in F. destruct (Z.eq_dec r x) as [-> | N].
      * rewrite mfind_mset_eq in F. inversion F; subst. cbn. apply PL. left. reflexivity.
      * rewrite mfind_mset_neq in F by assumption. exact (K s F).
    + inversion E1; subst. intros s F. unfold closeSource in F. destruct (mfind x (tsrc t)); [|exact (K s F)]. cbn in F. apply mfind_mdel_some in F; [|apply V]. exact (K s (proj1 F)).
    + destruct V as (W & P & D). destruct (round_ended _ _ _ _ _ _ W P D E1) as ((SH & _) & _). intros s F.
      destruct (shape_find _ _ _ _ SH F) as (s' & F' & _ & K' & _). rewrite <- K'. exact (K s' F').
Qed.
