From Coq Require Import ZArith List Bool Lia.
From Verif Require Import Bytes RcvModel RcvSpec.
Import ListNotations.
Open Scope Z_scope.

(* ---- invariant of supported histories ---- *)

Definition sinv (s : sink) (p : port) : Prop :=
  (forall f, asked s = Some (Some f) -> free s = false) /\
  (forall q k, held s = Some (q, k) ->
     exists w, pw p = Some w /\ wq w = q /\ (free s = false -> widx w = k)) /\
  (forall q k, asked s = Some (Some (q, k)) ->
     (exists w, pw p = Some w /\ wq w = q /\ widx w = k) \/ memZ q (plimbo p) = true) /\
  (forall q k, asked s = Some (Some (q, k)) -> q < pnext p) /\
  (asked s <> None -> held s <> None -> free s = false) /\
  (task s = true <-> asked s = None) /\
  (forall q k f w, asked s = Some (Some (q, k)) -> held s = Some f ->
     pw p = Some w -> q = wq w).

Definition pinv (p : port) : Prop :=
  (forall w, pw p = Some w -> wq w < pnext p /\ pinfo p = true /\ memZ (wq w) (plimbo p) = false) /\
  (forall q, memZ q (plimbo p) = true -> q < pnext p) /\
  Forall (fun o => oq o < pnext p) (pout p) /\
  match pent p with
  | Absent => pw p = None
  | Dead => False
  | Live s => sinv s p
  end.

Lemma pinv0 : pinv port0.
Proof.
  unfold pinv, port0; cbn [pw plimbo pout pent]. repeat apply conj.
  - discriminate.
  - discriminate.
  - constructor.
  - reflexivity.
Qed.

Lemma memZ_drop x y l : memZ x (dropZ y l) = negb (y =? x) && memZ x l.
Proof.
  induction l as [|a l IH]; cbn [dropZ filter memZ].
  - rewrite andb_false_r. reflexivity.
  - destruct (y =? a) eqn:E; cbn [negb]; fold (dropZ y l).
    + rewrite IH. apply Z.eqb_eq in E. subst a.
      rewrite (Z.eqb_sym x y). destruct (y =? x); reflexivity.
    + cbn [memZ]. rewrite IH. destruct (x =? a) eqn:F; cbn [orb].
      * apply Z.eqb_eq in F. subst a. rewrite E. reflexivity.
      * reflexivity.
Qed.

Ltac splits := repeat match goal with |- _ /\ _ => split end;
  try match goal with D : task _ = true <-> _ |- _ => exact D end.

Lemma inv_add p : pinv p -> exists p', addSink p = Ok p' /\ pinv p'.
Proof.
  intros (A & B & C & D). unfold addSink. destruct (pent p) as [| |s] eqn:E.
  - eexists; split; [reflexivity|].
    unfold pinv, setEnt; cbn [pw plimbo pout pent pnext pinfo].
    splits; try assumption.
    unfold sinv, sink0, continuePlaying; cbn [held free asked task pw plimbo pnext].
    splits; try discriminate; intros; try discriminate; try congruence.
    split; discriminate.
  - destruct D.
  - eexists; split; [reflexivity|]. unfold pinv. rewrite E.
    splits; assumption.
Qed.

Lemma inv_remove p : pinv p -> pw p = None ->
  exists p', removePort p = Ok p' /\ pinv p'.
Proof.
  intros (A & B & C & D) N. unfold removePort. destruct (pent p) as [| |s] eqn:E.
  - eexists; split; [reflexivity|]. unfold pinv. rewrite E. splits; assumption.
  - destruct D.
  - unfold disconnectWriter, setEnt; cbn [pw]. rewrite N.
    eexists; split; [reflexivity|].
    unfold pinv; cbn [pw plimbo pout pent pnext pinfo]. splits; try assumption.
    + intros w W. congruence.
    + reflexivity.
Qed.

Lemma inv_connect mx p : pinv p -> exists p', connect mx p = Ok p' /\ pinv p'.
Proof.
  intros P. pose proof P as (A & B & C & D). unfold connect.
  destruct (pw p) as [w|] eqn:W; [eexists; split; [reflexivity|exact P]|].
  destruct (pent p) as [| |s] eqn:E; [eexists; split; [reflexivity|exact P]|destruct D|].
  eexists; split; [reflexivity|].
  destruct D as (D1 & D2 & D3 & D4 & D5 & D6 & D7).
  unfold pinv; cbn [pw plimbo pout pent pnext pinfo]. splits.
  - intros w Hw. injection Hw as <-. cbn [wq]. splits; [lia|reflexivity|].
    destruct (memZ (pnext p) (plimbo p)) eqn:M; [|reflexivity].
    apply B in M. lia.
  - intros q M. apply B in M. lia.
  - eapply Forall_impl; [|exact C]. intros o Ho. cbn in *. lia.
  - unfold sinv; cbn [pw plimbo pnext]. splits.
    + exact D1.
    + intros q k H. destruct (D2 q k H) as (w & Hw & _). congruence.
    + intros q k H. destruct (D3 q k H) as [(w & Hw & _)|M]; [congruence|right; exact M].
    + intros q k H. apply D4 in H. lia.
    + exact D5.
    + intros q k f w H1 H2 H3. destruct f as [q' k'].
      destruct (D2 q' k' H2) as (w' & Hw & _). congruence.
Qed.

(* deleting the writer: the queue is freed, or left to its reader *)
Lemma inv_delete p l w : pinv p -> pw p = Some w ->
  (forall q, memZ q l = true -> memZ q (plimbo p) = true \/ q = wq w) ->
  (forall q, memZ q (plimbo p) = true -> memZ q l = true) ->
  (forall s k, pent p = Live s -> asked s = Some (Some (wq w, k)) -> memZ (wq w) l = true) ->
  exists p', deleteWriter (setLimbo p l) = Ok p' /\ pinv p'.
Proof.
  intros (A & B & C & D) W L1 L2 L3.
  destruct (A w W) as (A1 & A2 & A3).
  unfold deleteWriter, specificWriterDelete, setPw, setLimbo; cbn [pinfo pent pw plimbo pnext pout].
  rewrite A2. destruct (pent p) as [| |s] eqn:E; [congruence|destruct D|].
  destruct D as (D1 & D2 & D3 & D4 & D5 & D6 & D7).
  eexists; split; [reflexivity|].
  unfold setEnt, pinv; cbn [pw plimbo pout pent pnext pinfo]. splits.
  - discriminate.
  - intros q M. destruct (L1 q M) as [M1| ->]; [apply B; exact M1|exact A1].
  - exact C.
  - unfold sinv, sinkDisconnect; cbn [held free asked task pw plimbo pnext]. splits.
    + exact D1.
    + discriminate.
    + intros q k H. right. destruct (D3 q k H) as [(w' & Hw & Hq & _)|M].
      * assert (w' = w) by congruence. subst w' q. eapply L3; eauto.
      * apply L2. exact M.
    + exact D4.
    + congruence.
    + discriminate.
Qed.

Lemma setLimbo_same p : setLimbo p (plimbo p) = p.
Proof. destruct p; reflexivity. Qed.

Lemma inv_disc p : pinv p -> (forall q, frees q ODisc p -> ~ filling q p) ->
  exists p', disconnectWriter p = Ok p' /\ pinv p'.
Proof.
  intros P F. unfold disconnectWriter. destruct (pw p) as [w|] eqn:W.
  2: eexists; split; [reflexivity|exact P].
  destruct (wconn w) eqn:K.
  - apply (inv_delete p _ w P W); cbn [memZ].
    + intros q M. apply orb_true_iff in M. destruct M as [M|M]; [right|left; exact M].
      apply Z.eqb_eq in M. exact M.
    + intros q ->. apply orb_true_r.
    + intros. rewrite Z.eqb_refl. reflexivity.
  - replace (deleteWriter p) with (deleteWriter (setLimbo p (plimbo p))) by (rewrite setLimbo_same; reflexivity).
    apply (inv_delete p _ w P W).
    + intros q M. left. exact M.
    + intros q M. exact M.
    + intros s k E H. exfalso. apply (F (wq w)).
      * exists w. auto.
      * exists s, k. auto.
Qed.

Lemma inv_demand ev p : pinv p -> (forall q, frees q (ORound ev) p -> ~ filling q p) ->
  exists p', demand p = Ok p' /\ pinv p'.
Proof.
  intros P F. unfold demand. destruct (pw p) as [w|] eqn:W.
  2: eexists; split; [reflexivity|exact P].
  destruct (wconn w) eqn:K.
  - eexists; split; [reflexivity|]. destruct P as (A & B & C & D).
    unfold pinv, setPw, setCur; cbn [pw plimbo pout pent pnext pinfo]. splits.
    + intros w' H. injection H as <-. cbn [wq]. apply A. exact W.
    + exact B.
    + exact C.
    + destruct (pent p) as [| |s]; [congruence|exact D|].
      destruct D as (D1 & D2 & D3 & D4 & D5 & D6 & D7).
      unfold sinv; cbn [pw plimbo pnext]. splits; try assumption.
      * intros q k H. destruct (D2 q k H) as (w' & Hw & Hq & Hi).
        assert (w' = w) by congruence. subst w'.
        eexists; split; [reflexivity|]. cbn [wq widx]. auto.
      * intros q k H. destruct (D3 q k H) as [(w' & Hw & Hq & Hi)|M]; [left|right; exact M].
        assert (w' = w) by congruence. subst w'.
        eexists; split; [reflexivity|]. cbn [wq widx]. auto.
      * intros q k f w' H1 H2 H3. injection H3 as <-. cbn [wq]. eapply D7; eauto.
  - replace (deleteWriter p) with (deleteWriter (setLimbo p (plimbo p))) by (rewrite setLimbo_same; reflexivity).
    apply (inv_delete p _ w P W).
    + intros q M. left. exact M.
    + intros q M. exact M.
    + intros s k E H. exfalso. apply (F (wq w)).
      * exists w. auto.
      * exists s, k. auto.
Qed.

(* after the offer, whenever the sink has a frame it is the current one, or
   it waits to be told to go on *)
Lemma inv_offer p : pinv p ->
  exists p', offer p = Ok p' /\ pinv p' /\
    (forall s w, pent p' = Live s -> pw p' = Some w -> free s = false).
Proof.
  intros P. pose proof P as (A & B & C & D). unfold offer.
  destruct (pw p) as [w|] eqn:W.
  2: { eexists; split; [reflexivity|]. split; [exact P|]. congruence. }
  destruct (pent p) as [| |s] eqn:E; [congruence|destruct D|].
  destruct D as (D1 & D2 & D3 & D4 & D5 & D6 & D7).
  eexists; split; [reflexivity|]. unfold setEnt. split.
  - unfold pinv; cbn [pw plimbo pout pent pnext pinfo]. splits; try assumption.
    + intros w' H. apply A. congruence.
    + unfold setFrame. destruct (free s) eqn:Fr.
      * unfold sinv; cbn [held free asked task pw plimbo pnext].
        assert (NA : forall f, asked s <> Some (Some f)).
        { intros f H. apply D1 in H. discriminate. }
        splits; try reflexivity.
        -- intros q k H. injection H as <- <-. exists w. rewrite W. auto.
        -- intros q k H. destruct (NA _ H).
        -- intros q k H. destruct (NA _ H).
        -- intros q k f w' H. destruct (NA _ H).
      * unfold sinv; cbn [pw plimbo pnext]. rewrite Fr. splits; assumption.
  - cbn [pent pw]. intros s' w' H H'. injection H as <-. unfold setFrame.
    destruct (free s) eqn:Fr; [reflexivity|exact Fr].
Qed.

Lemma receive_ok p s dst d : sinv s p -> asked s = Some dst ->
  pinv p ->
  exists p1 n, receive p dst d = Ok (p1, n) /\ pent p1 = pent p /\ pinfo p1 = pinfo p /\
    plimbo p1 = plimbo p /\ pnext p1 = pnext p /\ pout p1 = pout p /\
    match pw p with
    | None => pw p1 = None
    | Some w => exists c, pw p1 = Some (setCur w c)
    end.
Proof.
  intros (D1 & D2 & D3 & D4 & D5 & D6 & D7) H (A & B & C & _). unfold receive.
  destruct dst as [[q k]|].
  2: { do 2 eexists; split; [reflexivity|]. splits; try reflexivity.
       destruct (pw p) as [w|]; [|reflexivity]. exists (wcur w). destruct w; reflexivity. }
  destruct (D3 q k H) as [(w & Hw & Hq & Hi)|M].
  - rewrite Hw, Hq, Hi, !Z.eqb_refl.
    do 2 eexists; split; [reflexivity|]. cbn. splits; try reflexivity. eexists; reflexivity.
  - destruct (pw p) as [w|] eqn:W.
    + destruct (A w eq_refl) as (_ & _ & A3).
      destruct (wq w =? q) eqn:Q; [apply Z.eqb_eq in Q; congruence|].
      rewrite M. do 2 eexists; split; [reflexivity|]. splits; try reflexivity.
      exists (wcur w). rewrite W. destruct w; reflexivity.
    + rewrite M. do 2 eexists; split; [reflexivity|]. splits; try reflexivity. exact W.
Qed.

Lemma inv_setCur p w c : pinv p -> pw p = Some w -> pinv (setPw p (Some (setCur w c))).
Proof.
  intros (A & B & C & D) W. unfold pinv, setPw, setCur; cbn [pw plimbo pout pent pnext pinfo].
  splits; try assumption.
  - intros w' H. injection H as <-. cbn [wq]. apply A. exact W.
  - destruct (pent p) as [| |s]; [congruence|exact D|].
    destruct D as (D1 & D2 & D3 & D4 & D5 & D6 & D7).
    unfold sinv; cbn [pw plimbo pnext]. splits; try assumption.
    * intros q k H. destruct (D2 q k H) as (w' & Hw & Hq & Hi).
      assert (w' = w) by congruence. subst w'.
      eexists; split; [reflexivity|]. cbn [wq widx]. auto.
    * intros q k H. destruct (D3 q k H) as [(w' & Hw & Hq & Hi)|M]; [left|right; exact M].
      assert (w' = w) by congruence. subst w'.
      eexists; split; [reflexivity|]. cbn [wq widx]. auto.
    * intros q k f w' H1 H2 H3. injection H3 as <-. cbn [wq]. eapply D7; eauto.
Qed.

Lemma port_eta p : mkPort (pent p) (pinfo p) (pw p) (plimbo p) (pnext p) (pout p) = p.
Proof. destruct p; reflexivity. Qed.

Lemma receive_inv p s dst d : pinv p -> pent p = Live s -> asked s = Some dst ->
  exists p1 n, receive p dst d = Ok (p1, n) /\ pinv p1 /\ pent p1 = Live s.
Proof.
  intros P E H. pose proof P as (_ & _ & _ & D). rewrite E in D.
  destruct (receive_ok p s dst d D H P) as (p1 & n & R & E1 & E2 & E3 & E4 & E5 & E6).
  exists p1, n. split; [exact R|]. split; [|congruence].
  destruct (pw p) as [w|] eqn:W.
  - destruct E6 as (c & E6).
    assert (p1 = setPw p (Some (setCur w c))) as ->.
    { rewrite <- (port_eta p1). unfold setPw. congruence. }
    apply inv_setCur; assumption.
  - assert (p1 = p) as ->; [|exact P].
    rewrite <- (port_eta p1), <- (port_eta p). congruence.
Qed.

Lemma stamp_inv p s n t : pinv p -> pent p = Live s -> (held s <> None -> free s = false) ->
  exists p2, stamp p (held s) n t = Ok p2 /\ pinv p2 /\ pent p2 = Live s.
Proof.
  intros P E F. pose proof P as (A & B & C & D). rewrite E in D.
  unfold stamp. destruct (held s) as [[q k]|] eqn:Hd.
  2: { eexists; split; [reflexivity|]. auto. }
  destruct D as (D1 & D2 & D3). destruct (D2 q k Hd) as (w & Hw & Hq & Hi).
  rewrite Hw, Hq, (Hi (F ltac:(discriminate))), !Z.eqb_refl.
  eexists; split; [reflexivity|]. split; [apply inv_setCur; assumption|exact E].
Qed.

Lemma inv_single ev p : pinv p -> ev <> Some EBye ->
  (forall s w, pent p = Live s -> pw p = Some w -> free s = false) ->
  exists p' g, singleStep ev p = Ok (p', g) /\ pinv p'.
Proof.
  intros P N F. pose proof P as (A & B & C & D). unfold singleStep.
  destruct (pent p) as [| |s] eqn:E; [|destruct D|].
  { do 2 eexists; split; [reflexivity|exact P]. }
  destruct ev as [[|d t|]|]; [| |congruence|].
  3: { do 2 eexists; split; [reflexivity|exact P]. }
  - destruct (task s) eqn:T; [|do 2 eexists; split; [reflexivity|exact P]].
    do 2 eexists; split; [reflexivity|].
    destruct D as (D1 & D2 & D3 & D4 & D5 & D6 & D7).
    assert (NA : asked s = None) by (apply D6; exact T).
    unfold pinv, setEnt; cbn [pw plimbo pout pent pnext pinfo]. splits; try assumption.
    unfold continuePlaying; cbn [held free asked task].
    destruct (held s) as [[q k]|] eqn:Hd.
    + destruct (D2 q k eq_refl) as (w & Hw & Hq & Hi).
      rewrite (F s w eq_refl Hw). rewrite (F s w eq_refl Hw) in Hi.
      unfold sinv; cbn [held free asked task pw plimbo pnext]. splits; try reflexivity.
      * intros q' k' H. injection H as <- <-. exists w. rewrite Hw. auto.
      * intros q' k' H. injection H as <- <-. left. exists w. rewrite Hw. auto.
      * intros q' k' H. injection H as <- <-. subst q. apply A in Hw. tauto.
      * split; discriminate.
      * intros q' k' f w' H1 H2 H3. injection H1 as <- <-. congruence.
    + unfold sinv; cbn [held free asked task pw plimbo pnext]. splits; try discriminate; try congruence.
      split; discriminate.
  - destruct (asked s) as [dst|] eqn:K; [|do 2 eexists; split; [reflexivity|exact P]].
    destruct (receive_inv p s dst d P E K) as (p1 & n & R & P1 & E1).
    rewrite R. cbn [bind].
    assert (HF : held s <> None -> free s = false).
    { intros X. destruct D as (D1 & D2 & D3 & D4 & D5 & D6 & D7).
      apply D5; [congruence|exact X]. }
    destruct (stamp_inv p1 s n t P1 E1 HF) as (p2 & S2 & P2 & E2).
    rewrite S2. cbn [bind]. do 2 eexists; split; [reflexivity|].
    pose proof P2 as (A2 & B2 & C2 & Q2). rewrite E2 in Q2.
    destruct Q2 as (D1 & D2 & D3 & D4 & D5 & D6 & D7).
    unfold pinv, setEnt; cbn [pw plimbo pout pent pnext pinfo]. splits; try assumption.
    unfold sinv, afterGetting; cbn [held free asked task pw plimbo pnext].
    splits; try discriminate; try congruence; try reflexivity; try (split; reflexivity).
    intros q k H. destruct (D2 q k H) as (w & Hw & Hq & Hi). exists w.
    rewrite H. splits; [assumption|assumption|discriminate].
Qed.

(* the step leaves no finished frame behind unless the sink is free *)
Lemma single_done ev p p' g : pinv p ->
  (forall w, pw p = Some w -> done (wcur w) = false) ->
  singleStep ev p = Ok (p', g) ->
  forall s w, pent p' = Live s -> pw p' = Some w -> done (wcur w) = true ->
  free s = true /\ asked s = None.
Proof.
  intros P ND H s w Es Ew Dn. unfold singleStep in H.
  destruct (pent p) as [| |s0] eqn:E.
  - injection H as <- <-. congruence.
  - injection H as <- <-. congruence.
  - destruct ev as [[|d t|]|].
    + destruct (task s0); injection H as <- <-.
      * cbn in Ew. apply ND in Ew. congruence.
      * apply ND in Ew. congruence.
    + destruct (asked s0) as [dst|] eqn:K.
      2: { injection H as <- <-. apply ND in Ew. congruence. }
      destruct (receive p dst d) as [[p1 n]|] eqn:R; [|discriminate].
      cbn [bind] in H. destruct (stamp p1 (held s0) n t) as [p2|] eqn:T; [|discriminate].
      cbn [bind] in H. injection H as <- <-. cbn in Es, Ew. injection Es as <-.
      split; [|reflexivity]. unfold afterGetting; cbn [free].
      destruct (held s0) as [f|] eqn:Hd; [reflexivity|].
      cbn [stamp] in T. injection T as <-.
      assert (Some w = pw p \/ exists w0 c, pw p = Some w0 /\ w = setCur w0 c /\ done c = done (wcur w0)) as [X|(w0 & c & X & -> & Y)].
      { unfold receive in R. destruct dst as [[q k]|].
        2: { injection R as <- <-. left. congruence. }
        destruct (pw p) as [w0|] eqn:W.
        2: { destruct (memZ q (plimbo p)); [|discriminate]. injection R as <- <-. congruence. }
        destruct (wq w0 =? q).
        - destruct (widx w0 =? k); [|discriminate]. injection R as <- <-. cbn in Ew.
          right. injection Ew as <-. do 2 eexists. splits; reflexivity.
        - destruct (memZ q (plimbo p)); [|discriminate]. injection R as <- <-.
          left. congruence. }
      * symmetry in X. apply ND in X. congruence.
      * apply ND in X. cbn in Dn. congruence.
    + injection H as <- <-. discriminate.
    + injection H as <- <-. apply ND in Ew. congruence.
Qed.

Lemma inv_addFrame p : pinv p ->
  (forall s w, pent p = Live s -> pw p = Some w -> done (wcur w) = true ->
     free s = true /\ asked s = None) ->
  pinv (addFrame p).
Proof.
  intros P H. unfold addFrame. destruct (pw p) as [w|] eqn:W; [|exact P].
  destruct (done (wcur w)) eqn:Dn; [|exact P].
  destruct P as (A & B & C & D). destruct (A w W) as (A1 & A2 & A3).
  unfold pinv; cbn [pw plimbo pout pent pnext pinfo]. splits.
  - intros w' Hw. injection Hw as <-. cbn [wq]. auto.
  - exact B.
  - apply Forall_app. split; [exact C|]. apply Forall_cons; [|apply Forall_nil]. exact A1.
  - destruct (pent p) as [| |s]; [congruence|exact D|].
    destruct (H s w eq_refl eq_refl Dn) as (H1 & H2).
    destruct D as (D1 & D2 & D3 & D4 & D5 & D6 & D7).
    unfold sinv; cbn [pw plimbo pnext]. splits; try congruence.
    + intros q k Hd. destruct (D2 q k Hd) as (w' & Hw & Hq & _).
      assert (w' = w) by congruence. subst w'.
      eexists; split; [reflexivity|]. cbn [wq widx]. split; [exact Hq|congruence].
Qed.

Lemma demand_done p p' w : demand p = Ok p' -> pw p' = Some w -> done (wcur w) = false.
Proof.
  unfold demand. intros H W. destruct (pw p) as [w0|] eqn:W0.
  2: { injection H as <-. congruence. }
  destruct (wconn w0).
  - injection H as <-. cbn in W. injection W as <-. reflexivity.
  - unfold deleteWriter, specificWriterDelete in H. cbn [setPw pinfo pent] in H.
    destruct (pinfo p); [destruct (pent p); try discriminate|]; injection H as <-;
    cbn in W; discriminate.
Qed.

Lemma offer_pw p p' : offer p = Ok p' -> pw p' = pw p.
Proof.
  unfold offer. intros H. destruct (pw p) as [w0|] eqn:W0.
  2: { injection H as <-. exact W0. }
  destruct (pent p); try discriminate; injection H as <-; cbn; exact W0.
Qed.

Lemma inv_round ev p : pinv p -> supported (ORound ev) p ->
  exists p' g, round ev p = Ok (p', g) /\ pinv p'.
Proof.
  intros P (N & _ & F).
  destruct (inv_demand ev p P F) as (p1 & R1 & P1).
  destruct (inv_offer p1 P1) as (p2 & R2 & P2 & F2).
  assert (N' : ev <> Some EBye) by (intros ->; apply N; reflexivity).
  destruct (inv_single ev p2 P2 N' F2) as (p3 & g & R3 & P3).
  unfold round. rewrite R1. cbn [bind]. rewrite R2. cbn [bind]. rewrite R3. cbn [bind].
  do 2 eexists; split; [reflexivity|]. apply inv_addFrame; [exact P3|].
  eapply single_done; [exact P2| |exact R3].
  intros w W. rewrite (offer_pw _ _ R2) in W. eapply demand_done; eauto.
Qed.

Lemma inv_step o p : pinv p -> supported o p ->
  exists p' g, step o p = Ok (p', g) /\ pinv p'.
Proof.
  intros P Su. destruct o as [ | |mx| | |q|ev]; cbn [step].
  - destruct (inv_add p P) as (p' & -> & P'). do 2 eexists; split; [reflexivity|exact P'].
  - destruct Su as (_ & N & _).
    destruct (inv_remove p P (N eq_refl)) as (p' & -> & P').
    do 2 eexists; split; [reflexivity|exact P'].
  - destruct (inv_connect mx p P) as (p' & -> & P'). do 2 eexists; split; [reflexivity|exact P'].
  - destruct Su as (_ & _ & F).
    destruct (inv_disc p P F) as (p' & -> & P'). do 2 eexists; split; [reflexivity|exact P'].
  - destruct (pw p) as [w|] eqn:W; [|do 2 eexists; split; [reflexivity|exact P]].
    do 2 eexists; split; [reflexivity|].
    destruct P as (A & B & C & D).
    unfold pinv, setPw; cbn [pw plimbo pout pent pnext pinfo]. splits; try assumption.
    + intros w' H. injection H as <-. cbn [wq]. apply A. exact W.
    + destruct (pent p) as [| |s]; [congruence|exact D|].
      destruct D as (D1 & D2 & D3 & D4 & D5 & D6 & D7).
      unfold sinv; cbn [pw plimbo pnext]. splits; try assumption.
      * intros q k H. destruct (D2 q k H) as (w' & Hw & Hq & Hi).
        assert (w' = w) by congruence. subst w'.
        eexists; split; [reflexivity|]. cbn [wq widx]. auto.
      * intros q k H. destruct (D3 q k H) as [(w' & Hw & Hq & Hi)|M]; [left|right; exact M].
        assert (w' = w) by congruence. subst w'.
        eexists; split; [reflexivity|]. cbn [wq widx]. auto.
      * intros q k f w' H1 H2 H3. injection H3 as <-. cbn [wq]. eapply D7; eauto.
  - do 2 eexists; split; [reflexivity|].
    destruct Su as (_ & _ & F). destruct P as (A & B & C & D).
    unfold pinv, setLimbo; cbn [pw plimbo pout pent pnext pinfo]. splits; try assumption.
    + intros w W. destruct (A w W) as (A1 & A2 & A3). splits; try assumption.
      rewrite memZ_drop, A3. apply andb_false_r.
    + intros q' M. rewrite memZ_drop in M. apply andb_true_iff in M. apply B, M.
    + destruct (pent p) as [| |s] eqn:E; [exact D|exact D|].
      destruct D as (D1 & D2 & D3 & D4 & D5 & D6 & D7).
      unfold sinv; cbn [pw plimbo pnext]. splits; try assumption.
      * intros q' k H. destruct (D3 q' k H) as [X|M]; [left; exact X|right].
        rewrite memZ_drop, M, andb_true_r.
        destruct (q =? q') eqn:Q; [|reflexivity]. apply Z.eqb_eq in Q. subst q'.
        exfalso. apply (F q); [reflexivity|]. exists s, k. auto.
  - exact (inv_round ev p P Su).
Qed.

Lemma inv_run ops : forall p, pinv p -> supportedAll ops p ->
  exists p' l, run ops p = Ok (p', l) /\ pinv p'.
Proof.
  induction ops as [|o ops IH]; intros p P Su; cbn [run].
  - do 2 eexists; split; [reflexivity|exact P].
  - destruct Su as (S1 & S2). destruct (inv_step o p P S1) as (p1 & g & E & P1).
    rewrite E in *. cbn [bind].
    destruct (IH p1 P1 S2) as (p2 & l & -> & P2). cbn [bind].
    do 2 eexists; split; [reflexivity|exact P2].
Qed.

Lemma reachable_inv p : reachable p -> pinv p.
Proof.
  intros (ops & l & Su & R). destruct (inv_run ops port0 pinv0 Su) as (p' & l' & E & P).
  congruence.
Qed.

Lemma run_app a : forall b p,
  run (a ++ b) p =
  bind (run a p) (fun '(p1, l1) => bind (run b p1) (fun '(p2, l2) => Ok (p2, l1 ++ l2))).
Proof.
  induction a as [|o a IH]; intros b p; cbn [run app bind].
  - destruct (run b p) as [[p2 l2]|]; reflexivity.
  - destruct (step o p) as [[p1 g]|]; [|reflexivity]. cbn [bind]. rewrite IH.
    destruct (run a p1) as [[p2 l2]|]; [|reflexivity]. cbn [bind].
    destruct (run b p2) as [[p3 l3]|]; [|reflexivity]. cbn [bind].
    destruct g; reflexivity.
Qed.

(* ---- delivery ---- *)

Lemma expected_app q mx g : forall n d t,
  expected q mx n (g ++ [(d, t)]) =
  expected q mx n g ++ [mkOut q (Some (firstn (Z.to_nat (Z.min (len d) mx)) d))
                          (Z.min (len d) mx) t (n + Z.of_nat (length g))].
Proof.
  induction g as [|[d0 t0] g IH]; intros n d t; cbn [app expected length].
  - rewrite Z.add_0_r. reflexivity.
  - rewrite IH. do 3 f_equal. f_equal. lia.
Qed.

Definition want (late : bool) (q mx : Z) (g : list (bytes * Z)) : list out :=
  if late then expectedLate q mx g else expected q mx 0 g.

Definition dinv (late : bool) (q mx : Z) (g : list (bytes * Z)) (p : port) : Prop :=
  exists s w, pent p = Live s /\ pw p = Some w /\ wq w = q /\ wmax w = mx /\
    wconn w = true /\ wseq w = Z.of_nat (length g) /\ widx w = Z.of_nat (length g) /\
    handed q p = want late q mx g /\ body (wcur w) = None /\
    (held s = None -> free s = true) /\
    (forall f, held s = Some f -> free s = false -> f = (q, widx w)) /\
    (forall f, asked s = Some (Some f) -> f = (q, widx w) /\ held s = Some f /\ free s = false) /\
    (asked s = Some None -> late = true /\ g = []) /\
    (asked s <> None -> held s <> None -> free s = false) /\
    (task s = true -> asked s = None) /\
    (late = true -> g = [] -> asked s = Some None).

Lemma handed_app q p o : handed q (mkPort (pent p) (pinfo p) (pw p) (plimbo p) (pnext p) (pout p ++ [o]))
  = handed q p ++ (if oq o =? q then [o] else []).
Proof.
  unfold handed; cbn [pout]. rewrite filter_app. cbn [filter].
  destruct (oq o =? q); reflexivity.
Qed.

Lemma len_snoc {A} (g : list A) x : length (g ++ [x]) = S (length g).
Proof. rewrite app_length. cbn. lia. Qed.

Lemma step_deliver late q mx g p ev : dinv late q mx g p -> ev <> Some EBye ->
  exists p' got, round ev p = Ok (p', got) /\
    dinv late q mx (g ++ match got with Some x => [x] | None => [] end) p'.
Proof.
  intros (s & w & E & W & Wq & Wm & Wc & Ws & Wi & H & Bd & S1 & S2 & S3 & S4 & S5 & S6 & S7) N.
  unfold round, demand. rewrite W, Wc. cbn [bind].
  unfold offer. cbn [setPw pw pent setCur wq widx]. rewrite E. cbn [bind].
  set (s1 := setFrame s (wq w, widx w)).
  assert (Hs1 : held s1 = Some (q, widx w) /\ free s1 = false /\ asked s1 = asked s /\ task s1 = task s).
  { unfold s1, setFrame. destruct (free s) eqn:F; cbn [held free asked task].
    - rewrite Wq. auto.
    - destruct (held s) as [f|] eqn:Hd; [|specialize (S1 eq_refl); discriminate].
      rewrite (S2 f eq_refl eq_refl). auto. }
  destruct Hs1 as (Hh & Hf & Ha & Ht).
  unfold singleStep. cbn [setEnt pent].
  destruct ev as [[|d t|]|]; [| |congruence|].
  - (* task *)
    destruct (task s1) eqn:T; cbn [bind].
    + unfold addFrame, setEnt; cbn [pw setPw wcur setCur done].
      do 2 eexists; split; [reflexivity|]. rewrite app_nil_r.
      assert (A0 : asked s = None) by (apply S6; congruence).
      unfold continuePlaying; cbn [held free asked task]. rewrite Hh, Hf.
      eexists; eexists. cbn [pent pw setPw setCur wq wmax wconn wseq widx wcur body held free asked task].
      repeat (split; [first [reflexivity|assumption]|]).
      cbn [held free asked task wq widx wseq wcur body].
      splits; try discriminate;
        try (let Hx := fresh in intros ? Hx; injection Hx as <-; solve [auto]); try congruence.
      * intros L G. specialize (S7 L G). congruence.
    + unfold addFrame, setEnt; cbn [pw setPw wcur setCur done].
      do 2 eexists; split; [reflexivity|]. rewrite app_nil_r.
      eexists; eexists. cbn [pent pw setPw setCur wq wmax wconn wseq widx wcur body].
      repeat (split; [first [reflexivity|assumption]|]).
      cbn [held free asked task wq widx wseq wcur body].
      rewrite Ha, Hh, Hf, T. splits; try discriminate;
        try (let Hx := fresh in intros ? Hx; injection Hx as <-; solve [auto]); try assumption; try congruence.
      * intros f Hx. destruct (S3 f Hx) as (X & _). subst f. auto.
  - (* data *)
    destruct (asked s1) as [dst|] eqn:K; cbn [bind].
    2: { unfold addFrame, setEnt; cbn [pw setPw wcur setCur done].
      do 2 eexists; split; [reflexivity|]. rewrite app_nil_r.
      eexists; eexists. cbn [pent pw setPw setCur wq wmax wconn wseq widx wcur body].
      repeat (split; [first [reflexivity|assumption]|]).
      cbn [held free asked task wq widx wseq wcur body].
      rewrite K, Hh, Hf, Ht. splits; try discriminate;
        try (let Hx := fresh in intros ? Hx; injection Hx as <-; solve [auto]); try assumption; try congruence.
      intros L G. specialize (S7 L G). congruence. }
    assert (Kd : asked s = Some dst) by congruence.
    destruct dst as [f|].
    + (* into the frame *)
      destruct (S3 f Kd) as (-> & _ & _).
      unfold receive; cbn [pw setPw setEnt setCur wq widx wmax wcur].
      rewrite Wq, !Z.eqb_refl. cbn [bind].
      unfold stamp. rewrite Hh. cbn [pw setPw setEnt setCur wq widx wmax wcur body slen stime done].
      rewrite ?Wq, !Z.eqb_refl. cbn [bind].
      unfold addFrame, setEnt, setPw; cbn [pw pent wcur setCur done wq wmax widx wseq wconn body slen stime pinfo plimbo pnext pout].
      do 2 eexists; split; [reflexivity|].
      eexists; eexists. cbn [pent pw wq wmax wconn wseq widx wcur body].
      split; [reflexivity|]. split; [reflexivity|]. cbn [wq wmax wconn wseq widx wcur body].
      split; [exact Wq|]. split; [exact Wm|]. split; [exact Wc|].
      split; [rewrite len_snoc; lia|]. split; [rewrite len_snoc; lia|].
      split.
      { unfold handed in *. cbn [pout]. rewrite filter_app, H. cbn [filter oq].
        rewrite ?Wq, Z.eqb_refl. rewrite Wm, Ws.
        assert (NL : late = true -> g <> []).
        { intros L G. specialize (S7 L G). congruence. }
        unfold want. destruct late.
        - destruct g as [|[d0 t0] g]; [destruct (NL eq_refl eq_refl)|].
          cbn [app expectedLate]. rewrite expected_app. cbn [app]. do 3 f_equal.
          f_equal. rewrite (Nat2Z.inj_succ (length g)) || cbn [length]. lia.
        - rewrite expected_app. reflexivity. }
      split; [reflexivity|].
      unfold afterGetting; cbn [held free asked task]. rewrite Hh.
      splits; try discriminate;
        try (let Hx := fresh in intros ? Hx; injection Hx as <-; solve [auto]); try congruence.
      intros L G. destruct g; discriminate.
    + (* into the dummy buffer: requested before the connection *)
      destruct (S4 Kd) as (-> & ->).
      unfold receive. cbn [bind].
      unfold stamp. rewrite Hh. cbn [pw setPw setEnt setCur wq widx wmax wcur body slen stime done].
      rewrite Wq, !Z.eqb_refl. cbn [bind].
      unfold addFrame, setEnt, setPw; cbn [pw pent wcur setCur done wq wmax widx wseq wconn body slen stime pinfo plimbo pnext pout].
      do 2 eexists; split; [reflexivity|].
      eexists; eexists. cbn [pent pw wq wmax wconn wseq widx wcur body].
      split; [reflexivity|]. split; [reflexivity|]. cbn [wq wmax wconn wseq widx wcur body].
      split; [exact Wq|]. split; [exact Wm|]. split; [exact Wc|].
      split; [rewrite Ws; reflexivity|]. split; [rewrite Wi; reflexivity|].
      split.
      { unfold handed in *. cbn [pout]. rewrite filter_app, H. cbn [filter oq].
        rewrite ?Wq, Z.eqb_refl. rewrite Bd, Ws. reflexivity. }
      split; [reflexivity|].
      unfold afterGetting; cbn [held free asked task]. rewrite Hh.
      splits; try discriminate;
        try (let Hx := fresh in intros ? Hx; injection Hx as <-; solve [auto]); try congruence.
  - (* nothing *)
    cbn [bind]. unfold addFrame, setEnt; cbn [pw setPw wcur setCur done].
    do 2 eexists; split; [reflexivity|]. rewrite app_nil_r.
    eexists; eexists. cbn [pent pw setPw setCur wq wmax wconn wseq widx wcur body].
    repeat (split; [first [reflexivity|assumption]|]).
      cbn [held free asked task wq widx wseq wcur body].
    rewrite Ha, Hh, Hf, Ht. splits; try discriminate;
        try (let Hx := fresh in intros ? Hx; injection Hx as <-; solve [auto]); try assumption; try congruence.
    + intros f Hx. destruct (S3 f Hx) as (X & _). subst f. auto.
Qed.

Lemma run_deliver late q mx ops : forall g p, dinv late q mx g p -> rounds ops ->
  exists p' got, run ops p = Ok (p', got) /\ dinv late q mx (g ++ got) p'.
Proof.
  induction ops as [|o ops IH]; intros g p D R; cbn [run].
  - do 2 eexists; split; [reflexivity|]. rewrite app_nil_r. exact D.
  - pose proof (Forall_inv R) as (ev & -> & N). apply Forall_inv_tail in R.
    destruct (step_deliver _ _ _ _ _ ev D N) as (p1 & g1 & E & D1).
    cbn [step]. rewrite E. cbn [bind].
    destruct (IH _ _ D1 R) as (p2 & l & -> & D2). cbn [bind].
    do 2 eexists; split; [reflexivity|].
    rewrite <- app_assoc in D2. destruct g1; exact D2.
Qed.

Lemma handed_fresh p q : Forall (fun o => oq o < pnext p) (pout p) -> pnext p <= q ->
  handed q p = [].
Proof.
  unfold handed. intros F L. induction F as [|o l Ho F IH]; [reflexivity|].
  cbn [filter]. destruct (oq o =? q) eqn:Q; [apply Z.eqb_eq in Q; lia|exact IH].
Qed.

Lemma connect_dinv p mx late : pinv p -> idle p -> (late = true <-> requested p) ->
  exists p1, step (OConnect mx) p = Ok (p1, None) /\ dinv late (pnext p) mx [] p1.
Proof.
  intros P (s & E & W & Hd & Fr) L. pose proof P as (A & B & C & D). rewrite E in D.
  destruct D as (D1 & D2 & D3 & D4 & D5 & D6 & D7).
  assert (LA : late = true <-> asked s = Some None).
  { rewrite L. split.
    - intros (s' & E' & H). congruence.
    - intros H. exists s. auto. }
  cbn [step]. unfold connect. rewrite W, E. cbn [plain bind].
  eexists; split; [reflexivity|].
  exists s. eexists. cbn [pent pw]. split; [reflexivity|]. split; [reflexivity|].
  cbn [wq wmax wconn wseq widx wcur body emptySlot length].
  repeat (split; [reflexivity|]).
  split.
  { assert (X := handed_fresh p (pnext p) C ltac:(lia)). unfold handed in *. cbn [pout].
    rewrite X. destruct late; reflexivity. }
  split; [reflexivity|]. split; [congruence|]. split; [congruence|].
  split.
  { intros f H. apply D1 in H. congruence. }
  split; [intros H; split; [apply LA; exact H|reflexivity]|].
  split; [exact D5|]. split; [apply D6|]. intros H _. apply LA. exact H.
Qed.

(* ---- the sink that lost its frame while waiting ---- *)

Definition stuck (p : port) : Prop :=
  match pent p with
  | Live s => free s = false /\ held s = None
  | Dead => True
  | Absent => False
  end.

Lemma stuck_disc p p' : stuck p -> deleteWriter p = Ok p' -> stuck p' /\ pout p' = pout p.
Proof.
  unfold deleteWriter, specificWriterDelete, stuck. cbn [setPw pinfo pent].
  intros S. destruct (pinfo p).
  - destruct (pent p); [discriminate|discriminate|]. intros H. injection H as <-.
    cbn. destruct S. auto.
  - intros H. injection H as <-. cbn. auto.
Qed.

Lemma stuck_disc_l p l p' : stuck p -> deleteWriter (setLimbo p l) = Ok p' -> stuck p' /\ pout p' = pout p.
Proof. intros S. apply (stuck_disc (setLimbo p l)). exact S. Qed.

Lemma stuck_step o p p' g : stuck p -> keepsSession o -> step o p = Ok (p', g) ->
  stuck p' /\ pout p' = pout p.
Proof.
  intros S (K1 & K2) H. destruct o as [ | |mx| | |q|ev]; try congruence; cbn [step] in H.
  - unfold connect in H. destruct (pw p) as [w|].
    + injection H as <- <-. auto.
    + destruct (pent p) eqn:E; cbn in H; injection H as <- <-; unfold stuck in *; cbn;
      rewrite ?E in *; auto.
  - unfold disconnectWriter in H. destruct (pw p) as [w|].
    2: { injection H as <- <-. auto. }
    destruct (wconn w).
    + destruct (deleteWriter (setLimbo p (wq w :: plimbo p))) as [p1|] eqn:X; [|discriminate].
      injection H as <- <-. eapply stuck_disc_l; eauto.
    + destruct (deleteWriter p) as [p1|] eqn:X; [|discriminate].
      injection H as <- <-. eapply stuck_disc; eauto.
  - destruct (pw p); injection H as <- <-; unfold stuck in *; cbn; auto.
  - injection H as <- <-. unfold stuck in *; cbn; auto.
  - unfold round in H.
    destruct (demand p) as [p1|] eqn:X1; [|discriminate]. cbn [bind] in H.
    destruct (offer p1) as [p2|] eqn:X2; [|discriminate]. cbn [bind] in H.
    destruct (singleStep ev p2) as [[p3 g3]|] eqn:X3; [|discriminate]. cbn [bind] in H.
    injection H as <- <-.
    assert (D1 : stuck p1 /\ pout p1 = pout p /\ forall w, pw p1 = Some w -> done (wcur w) = false).
    { splits.
      - unfold demand in X1. destruct (pw p) as [w|]; [|injection X1 as <-; auto].
        destruct (wconn w); [injection X1 as <-; unfold stuck in *; cbn; auto|].
        eapply stuck_disc; eauto.
      - unfold demand in X1. destruct (pw p) as [w|]; [|injection X1 as <-; auto].
        destruct (wconn w); [injection X1 as <-; unfold stuck in *; cbn; auto|].
        eapply stuck_disc; eauto.
      - intros w. eapply demand_done; eauto. }
    destruct D1 as (T1 & O1 & N1).
    assert (D2 : stuck p2 /\ pout p2 = pout p1).
    { unfold offer in X2. destruct (pw p1) as [w|]; [|injection X2 as <-; auto].
      unfold stuck in *. destruct (pent p1) as [| |s] eqn:E; [destruct T1|discriminate|].
      injection X2 as <-. cbn. unfold setFrame. destruct T1 as (T1 & T2). rewrite T1. auto. }
    destruct D2 as (T2 & O2). assert (N2 := offer_pw _ _ X2).
    assert (D3 : stuck p3 /\ pout p3 = pout p2 /\ forall w, pw p3 = Some w -> done (wcur w) = false).
    { unfold singleStep in X3. unfold stuck in *.
      destruct (pent p2) as [| |s] eqn:E; [destruct T2| |].
      { injection X3 as <- <-. rewrite E. splits; auto. intros w Hw. apply N1. congruence. }
      destruct T2 as (T2 & T3). destruct ev as [[|d t|]|].
      - destruct (task s); injection X3 as <- <-.
        + unfold continuePlaying; cbn [held free asked task]. rewrite T3. cbn. splits; auto.
          intros w Hw. apply N1. congruence.
        + rewrite E. splits; auto. intros w Hw. apply N1. congruence.
      - destruct (asked s) as [dst|].
        2: { injection X3 as <- <-. rewrite E. splits; auto. intros w Hw. apply N1. congruence. }
        destruct (receive p2 dst d) as [[p4 n]|] eqn:R; [|discriminate]. cbn [bind] in X3.
        rewrite T3 in X3. cbn [stamp bind] in X3. injection X3 as <- <-.
        unfold afterGetting; cbn [setEnt pent held free pout]. rewrite T3. cbn [pw].
        assert (Y : pout p4 = pout p2 /\ forall w, pw p4 = Some w -> done (wcur w) = false).
        { unfold receive in R. destruct dst as [[q k]|].
          2: { injection R as <- <-. split; [reflexivity|]. intros w Hw. apply N1. congruence. }
          destruct (pw p2) as [w0|] eqn:W.
          2: { destruct (memZ q (plimbo p2)); [|discriminate]. injection R as <- <-.
               split; [reflexivity|]. intros w Hw. congruence. }
          destruct (wq w0 =? q).
          - destruct (widx w0 =? k); [|discriminate]. injection R as <- <-. cbn.
            split; [reflexivity|]. intros w Hw. injection Hw as <-. cbn. apply N1. congruence.
          - destruct (memZ q (plimbo p2)); [|discriminate]. injection R as <- <-.
            split; [reflexivity|]. intros w Hw. apply N1. congruence. }
        destruct Y. splits; auto.
      - injection X3 as <- <-. cbn. splits; auto. intros w Hw. apply N1. congruence.
      - injection X3 as <- <-. rewrite E. splits; auto. intros w Hw. apply N1. congruence. }
    destruct D3 as (T3 & O3 & N3).
    assert (addFrame p3 = p3) as ->.
    { unfold addFrame. destruct (pw p3) as [w|]; [|reflexivity]. rewrite (N3 w eq_refl). reflexivity. }
    split; [exact T3|congruence].
Qed.

Lemma stuck_run ops : forall p p' l, stuck p -> Forall keepsSession ops ->
  run ops p = Ok (p', l) -> pout p' = pout p.
Proof.
  induction ops as [|o ops IH]; intros p p' l S F H; cbn [run] in H.
  - injection H as <- <-. reflexivity.
  - destruct (step o p) as [[p1 g]|] eqn:E; [|discriminate]. cbn [bind] in H.
    destruct (run ops p1) as [[p2 l2]|] eqn:R; [|discriminate]. cbn [bind] in H.
    injection H as <- <-.
    destruct (stuck_step o p p1 g S (Forall_inv F) E) as (S1 & O1).
    rewrite <- O1. eapply IH; eauto. eapply Forall_inv_tail; eauto.
Qed.
