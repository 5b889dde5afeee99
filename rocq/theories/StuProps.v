(* C96: sessions of RTSP servers are set up stream by stream. *)
From Coq Require Import ZArith QArith Qround List Bool Lia Lqa.
From Verif Require Import ZMap StuModel StuSpec StuProofs StuReg.
Import ListNotations.
Local Open Scope list_scope.
Local Open Scope Z_scope.

(* What is said in every session, at any moment of any history of any number
   of sessions: the description is asked for, the streams that can be received
   are set up once each and in order whatever the answers, and then the
   session is played; while it plays it is kept alive, and it ends at most
   once. *)
Theorem C96_conversation s sid c : reachable s -> session s sid c -> proper (streams c) (log c).
Proof. intros R F. apply TI_proper. exact (reachable_TI s R sid c F). Qed.

(* No answer to the set-up of a stream keeps the others from being asked for:
   once there are as many answers as streams that can be received, playing is
   asked for.  What other sessions do in the meantime does not matter. *)
Lemma others_keep s x s' sid c : step s x = Fine s' -> fst x <> sid -> session s sid c -> exists c', session s' sid c' /\ alike c c'.
Proof.
  intros E N F. destruct x as [k e]. cbn [fst] in N. unfold step in E.
  assert (G : forall q r, session (mkRx r (mset k q (convs s))) sid c) by (intros; apply session_other; [congruence|exact F]).
  assert (U : forall o, update k o s = Fine s' -> exists c', session s' sid c' /\ alike c c') by (intros [q|] Q; [injection Q as <-; exists c; split; [apply G|apply alike_refl]|discriminate]).
  assert (SAME : Fine s = Fine s' -> exists c', session s' sid c' /\ alike c c') by (intros Q; injection Q as <-; exists c; split; [exact F|apply alike_refl]).
  destruct (mfind k (convs s)) as [ck|] eqn:FK; [|destruct e; try exact (SAME E); exact (U _ E)].
  destruct e as [b|d|ok|ok| | |i|].
  - exact (SAME E).
  - destruct (ph ck); try exact (SAME E). exact (U _ E).
  - destruct (ph ck); try exact (SAME E). destruct (setUp _ _ _ _ _ _ _) as [q r]. apply fine_inj in E. subst s'. exists c. split; [apply G|apply alike_refl].
  - destruct (ph ck); try (destruct ok; exact (SAME E)). destruct ok; [|exact (U _ E)]. destruct (delay (dur ck)); [exact (U _ E)|discriminate].
  - destruct (ph ck) as [| | |[o|]| |]; try exact (SAME E). exact (U _ E).
  - destruct (alarm ck); [|exact (SAME E)]. destruct (ph ck); try discriminate; exact (U _ E).
  - destruct (isIn i (sinks ck)); [|exact (SAME E)]. destruct (closable ck i); [|discriminate]. exact (U _ E).
  - unfold removeSession in E. destruct (ph ck); try discriminate; try exact (SAME E);
    (destruct (removeAll k (streams ck) s) as [s1|] eqn:RM; [|discriminate]; pose proof (removeAll_alike _ _ _ _ RM) as RA; pose proof (RA k) as RK; rewrite FK in RK; destruct (mfind k (convs s1)) as [c1|] eqn:F1; [|contradiction];
     apply fine_inj in E; subst s'; specialize (RA sid); unfold session in F; rewrite F in RA; destruct (mfind sid (convs s1)) as [c2|] eqn:F2; [|contradiction]; exists c2; split; [apply session_other; [congruence|exact F2]|exact RA]).
Qed.
Lemma answers_all sid : forall l s c s' i x rest answers, session s sid c -> ph c = PSetup i x rest -> eventsOf sid l = map SetUp answers ->
  List.length answers = S (List.length (recvOf rest)) -> run s l = Fine s' -> exists c', session s' sid c' /\ ph c' = PPlay /\
    log c' = log c ++ tl (exchanges (i :: recvOf rest) answers) ++ [Ask Play] /\ streams c' = streams c.
Proof.
  induction l as [|e l IH]; intros s c s' i x rest answers F P EV L R.
  - destruct answers; discriminate.
  - cbn [run] in R. destruct (step s e) as [s1| |] eqn:E; try discriminate. destruct (Z.eq_dec (fst e) sid) as [Q|Q].
    + destruct e as [k v]. cbn [fst] in Q. subst k. unfold eventsOf in EV. cbn [filter fst] in EV. rewrite Z.eqb_refl in EV. cbn [map snd] in EV.
      destruct answers as [|a answers]; [discriminate|]. cbn [map] in EV. injection EV as -> EV. fold (eventsOf sid l) in EV. cbn [List.length] in L.
      unfold step in E. unfold session in F. rewrite F, P in E.
      assert (G : exists q r, s1 = mkRx r (mset sid (next q rest) (convs s)) /\ log q = log c ++ [Answer a] /\ streams q = streams c).
      { unfold setUp in E. destruct a; apply fine_inj in E; subst s1; eexists; eexists; (split; [reflexivity|split; reflexivity]). }
      destruct G as (q & r & -> & Q1 & Q2). destruct (next_spec q rest) as [(d & j & y & r2 & -> & D & Y & NX)|(D & NX)]; rewrite NX in R.
      * rewrite recvOf_app, D in L. unfold recvOf in L. cbn [filter snd app] in L. rewrite Y in L. cbn [map List.length] in L.
        match type of R with run ?w _ = _ => match w with mkRx _ (mset _ ?z _) => destruct (IH w z s' j y r2 answers (session_same _ _ _ _) eq_refl EV) as (c' & C1 & C2 & C3 & C4); [unfold recvOf; lia|exact R|] end end.
        exists c'. split; [exact C1|]. split; [exact C2|]. cbn [to_ say log streams] in C3, C4. split; [|congruence]. rewrite C3, Q1.
        rewrite recvOf_app, D. unfold recvOf. cbn [filter snd app]. rewrite Y. cbn [map fst]. fold (recvOf r2). destruct answers as [|b answers]; [cbn in L; lia|].
        unfold exchanges. cbn [combine flat_map fst snd app tl]. rewrite <- !app_assoc. reflexivity.
      * rewrite D in L. destruct answers as [|b answers]; [|discriminate]. cbn [map] in EV.
        assert (K : forall l s c s', session s sid c -> eventsOf sid l = [] -> run s l = Fine s' -> exists c', session s' sid c' /\ alike c c').
        { clear. induction l as [|e l IH]; intros s c s' F EV R; cbn [run] in R; [injection R as <-; exists c; split; [exact F|apply alike_refl]|].
          destruct (step s e) as [s1| |] eqn:E; try discriminate. unfold eventsOf in EV. cbn [filter] in EV. destruct (Z.eqb_spec (fst e) sid) as [Q|Q]; [discriminate|].
          destruct (others_keep _ _ _ _ _ E Q F) as (c1 & F1 & A1). destruct (IH s1 c1 s' F1 EV R) as (c2 & F2 & A2). exists c2. split; [exact F2|eapply alike_trans; eassumption]. }
        match type of R with run ?w _ = _ => match w with mkRx _ (mset _ ?z _) => destruct (K l w z s' (session_same _ _ _ _) EV R) as (c' & C1 & A1 & A2 & A3 & A4 & _) end end.
        exists c'. split; [exact C1|]. cbn [to_ say ph log streams] in *. split; [exact A1|]. split; [|congruence]. rewrite A4, Q1, D. unfold exchanges. cbn [combine flat_map fst snd app tl]. rewrite <- app_assoc. reflexivity.
    + destruct (others_keep _ _ _ _ _ E Q F) as (c1 & F1 & A1 & A2 & A3 & A4 & A5).
      unfold eventsOf in EV. cbn [filter] in EV. destruct (Z.eqb_spec (fst e) sid) as [Q'|_]; [contradiction|]. fold (eventsOf sid l) in EV.
      destruct (IH s1 c1 s' i x rest answers F1 ltac:(congruence) EV L R) as (c' & C1 & C2 & C3 & C4). exists c'. split; [exact C1|]. split; [exact C2|]. split; [|congruence]. rewrite C3, A4. reflexivity.
Qed.
Theorem C96_all_are_asked sid ds abs t answers : forall l s c s', reachable s -> session s sid c -> ph c = PDescribe -> ds <> [] -> List.length answers = List.length (receivable ds) ->
  eventsOf sid l = Described (Some (ds, abs, t)) :: map SetUp answers -> run s l = Fine s' ->
  exists c', session s' sid c' /\ ph c' = PPlay /\ streams c' = ds /\ log c' = [Ask Describe; Answer true] ++ exchanges (receivable ds) answers ++ [Ask Play].
Proof.
  induction l as [|e l IH]; intros s c s' RE F P NE L EV R; [discriminate|]. cbn [run] in R. destruct (step s e) as [s1| |] eqn:E; try discriminate.
  assert (RE1 : reachable s1).
  { destruct RE as (h & RH). exists (h ++ [e]). clear - RH E. revert RH. generalize rx0 as s0. induction h as [|z h IH]; intros s0 RH; cbn [run app] in *; [injection RH as ->; rewrite E; reflexivity|]. destruct (step s0 z); try discriminate. apply IH. exact RH. }
  destruct (Z.eq_dec (fst e) sid) as [Q|Q].
  - destruct e as [k v]. cbn [fst] in Q. subst k. unfold eventsOf in EV. cbn [filter fst] in EV. rewrite Z.eqb_refl in EV. cbn [map snd] in EV. injection EV as -> EV. fold (eventsOf sid l) in EV.
    pose proof (reachable_TI s RE sid c F) as T. unfold TI in T. rewrite P in T. destruct T as (_ & LG & _).
    unfold step in E. unfold session in F. rewrite F, P in E. unfold described in E. destruct ds as [|y ds]; [congruence|]. unfold update in E. apply fine_inj in E. subst s1.
    match type of R with run (mkRx _ (mset _ (next ?z ?q) _)) _ = _ => set (c1 := z) in *; set (rest := q) in * end.
    assert (LC : log c1 = [Ask Describe; Answer true]) by (unfold c1; cbn [log]; rewrite LG; reflexivity).
    assert (RC : recvOf rest = receivable (y :: ds)) by apply numbered_recv.
    destruct (next_spec c1 rest) as [(d & j & z & r2 & RS & D & Y & NX)|(D & NX)]; rewrite NX in R.
    + rewrite <- RC, RS, recvOf_app, D in L |- *. unfold recvOf in L |- *. cbn [filter snd app] in L |- *. rewrite Y in L |- *. cbn [map fst List.length] in L |- *. fold (recvOf r2) in L |- *.
      match type of R with run ?u _ = _ => match u with mkRx _ (mset _ ?w _) => destruct (answers_all sid l u w s' j z r2 answers (session_same _ _ _ _) eq_refl EV L R) as (c' & C1 & C2 & C3 & C4) end end.
      exists c'. split; [exact C1|]. split; [exact C2|]. cbn [to_ say log streams] in C3, C4. split; [exact C4|]. rewrite C3, LC. destruct answers as [|a answers]; [discriminate|].
      unfold exchanges. cbn [combine flat_map fst snd app tl]. rewrite <- ?app_assoc. reflexivity.
    + rewrite RC in D. rewrite D in L |- *. destruct answers as [|a answers]; [|discriminate]. cbn [map] in EV.
      assert (K : forall l s c s', session s sid c -> eventsOf sid l = [] -> run s l = Fine s' -> exists c', session s' sid c' /\ alike c c').
      { clear. induction l as [|e l IH]; intros s c s' F EV R; cbn [run] in R; [injection R as <-; exists c; split; [exact F|apply alike_refl]|].
        destruct (step s e) as [s1| |] eqn:E; try discriminate. unfold eventsOf in EV. cbn [filter] in EV. destruct (Z.eqb_spec (fst e) sid) as [Q|Q]; [discriminate|].
        destruct (others_keep _ _ _ _ _ E Q F) as (c1 & F1 & A1). destruct (IH s1 c1 s' F1 EV R) as (c2 & F2 & A2). exists c2. split; [exact F2|eapply alike_trans; eassumption]. }
      match type of R with run ?u _ = _ => match u with mkRx _ (mset _ ?w _) => destruct (K l u w s' (session_same _ _ _ _) EV R) as (c' & C1 & A1 & A2 & A3 & A4 & _) end end.
      exists c'. split; [exact C1|]. cbn [to_ say ph log streams] in *. split; [exact A1|]. split; [exact A2|]. rewrite A4, LC. reflexivity.
  - destruct (others_keep _ _ _ _ _ E Q F) as (c1 & F1 & A1 & _). unfold eventsOf in EV. cbn [filter] in EV. destruct (Z.eqb_spec (fst e) sid) as [Q'|_]; [contradiction|]. fold (eventsOf sid l) in EV.
    apply (IH s1 c1 s' RE1 F1); auto. congruence.
Qed.

(* As long as no stream has the port of another, the streams received are
   among those the server agreed to send; each of those is received, whatever
   happened to the others, until the session ends or the server ends the
   stream. *)
Lemma absent_stays s0 k v s sid : step s0 (k, v) = Fine s -> mfind sid (convs s0) = None -> k <> sid -> mfind sid (convs s) = None.
Proof.
  intros E F0 N. unfold step in E.
        assert (K : forall q r, mfind sid (convs (mkRx r (mset k q (convs s0)))) = None) by (intros; cbn [convs]; rewrite mfind_mset_neq by congruence; exact F0).
        assert (U : forall o, update k o s0 = Fine s -> mfind sid (convs s) = None) by (intros [q|] Q; [injection Q as <-; apply K|discriminate]).
        assert (SAME : Fine s0 = Fine s -> mfind sid (convs s) = None) by (intros Q; injection Q as <-; exact F0).
        destruct (mfind k (convs s0)) as [ck|] eqn:FK; [|destruct v; try exact (SAME E); exact (U _ E)].
        destruct v as [b|d|ok|ok| | |j|].
        + exact (SAME E).
        + destruct (ph ck); try exact (SAME E). exact (U _ E).
        + destruct (ph ck); try exact (SAME E). destruct (setUp _ _ _ _ _ _ _) as [q r]. apply fine_inj in E. subst s. apply K.
        + destruct (ph ck); try (destruct ok; exact (SAME E)). destruct ok; [|exact (U _ E)]. destruct (delay (dur ck)); [exact (U _ E)|discriminate].
        + destruct (ph ck) as [| | |[o|]| |]; try exact (SAME E). exact (U _ E).
        + destruct (alarm ck); [|exact (SAME E)]. destruct (ph ck); try discriminate; exact (U _ E).
        + destruct (isIn j (sinks ck)); [|exact (SAME E)]. destruct (closable ck j); [|discriminate]. exact (U _ E).
        + unfold removeSession in E. destruct (ph ck); try discriminate; try exact (SAME E);
          (destruct (removeAll k (streams ck) s0) as [s1|] eqn:RM; [|discriminate]; pose proof (removeAll_alike _ _ _ _ RM) as RA; pose proof (RA k) as RK; rewrite FK in RK; destruct (mfind k (convs s1)) as [c1|] eqn:F1; [|contradiction];
           apply fine_inj in E; subst s; specialize (RA sid); rewrite F0 in RA; cbn [convs]; rewrite mfind_mset_neq by congruence; destruct (mfind sid (convs s1)); [contradiction|reflexivity]).
Qed.
Lemma run_snoc e h : forall s0 s, run s0 (h ++ [e]) = Fine s -> exists s1, run s0 h = Fine s1 /\ step s1 e = Fine s.
Proof.
  induction h as [|z h IH]; intros s0 s R; cbn [run app] in *; [exists s0; split; [reflexivity|destruct (step s0 e); congruence]|]. destruct (step s0 z); try discriminate. apply IH. exact R.
Qed.
Lemma open_sinks sid i : forall h s c, run rx0 h = Fine s -> ~ In (sid, Bye i) h -> session s sid c -> goingOn c -> In i (granted (log c)) -> In i (sinks c).
Proof.
  induction h as [|e h IH] using rev_ind; intros s c R NB F (G1 & G2) G; [injection R as <-; discriminate|].
  assert (ST : exists s0, run rx0 h = Fine s0 /\ step s0 e = Fine s).
  { clear - R. revert R. generalize rx0 as s0. induction h as [|z h IH]; intros s0 R; cbn [run app] in *; [exists s0; split; [reflexivity|destruct (step s0 e); congruence]|]. destruct (step s0 z); try discriminate. apply IH. exact R. }
  destruct ST as (s0 & R0 & E). clear R. specialize (IH s0). assert (NB0 : ~ In (sid, Bye i) h) by (intros C; apply NB; apply in_or_app; left; exact C).
  assert (NE : e <> (sid, Bye i)) by (intros C; apply NB; apply in_or_app; right; left; exact C).
  assert (KEEP : forall c0, session s0 sid c0 -> goingOn c0 -> In i (granted (log c0)) -> In i (sinks c0)) by (intros c0; apply IH; assumption). clear IH NB NB0.
  destruct (mfind sid (convs s0)) as [c0|] eqn:F0.
  2:{ exfalso. destruct e as [k v]. destruct (Z.eq_dec k sid) as [->|N].
      - unfold step in E. rewrite F0 in E. destruct v; try (injection E as <-; unfold session in F; congruence). injection E as <-. unfold session in F. cbn [convs] in F. rewrite mfind_mset_eq in F. injection F as <-. exact G.
      - assert (mfind sid (convs s) = None) by exact (absent_stays s0 k v s sid E F0 N). unfold session in F. congruence. }
  destruct e as [k v]. destruct (Z.eq_dec k sid) as [->|N].
  2:{ destruct (others_keep _ _ _ sid c0 E N F0) as (c1 & F1 & A1 & A2 & A3 & A4 & A5 & _). unfold session in F, F1. rewrite F in F1. injection F1 as <-. rewrite A5. apply (KEEP c0 F0); [split; congruence|congruence]. }
  unfold step in E. rewrite F0 in E.
  assert (SAME : Fine s0 = Fine s -> In i (sinks c)) by (intros Q; injection Q as <-; exact (KEEP c F (conj G1 G2) G)).
  assert (U : forall q r, s = mkRx r (mset sid q (convs s0)) -> q = c) by (intros q r ->; unfold session in F; cbn [convs] in F; rewrite mfind_mset_eq in F; congruence).
  destruct v as [b|d|ok|ok| | |j|].
  - exact (SAME E).
  - destruct (ph c0) eqn:P; try exact (SAME E). exfalso. unfold update in E. destruct (described d c0) as [q|] eqn:D; [|discriminate]. apply fine_inj in E. apply eq_sym in E. apply U in E. subst q.
    assert (R : reachable s0) by (exists h; exact R0). pose proof (reachable_TI s0 R sid c0 F0) as T. unfold TI in T. rewrite P in T. destruct T as (_ & LG & _). unfold described in D. destruct d as [[[l abs] t]|].
    + destruct l as [|y l]; [apply shutdown_some in D; subst c; apply G1; reflexivity|]. apply (f_equal (fun o => match o with Some z => z | None => c0 end)) in D. cbv beta iota in D. rewrite <- D in G. rewrite next_log in G. cbn [log] in G. rewrite LG in G. exact G.
    + apply shutdown_some in D. subst c. apply G1. reflexivity.
  - destruct (ph c0) eqn:P; try exact (SAME E). assert (R : reachable s0) by (exists h; exact R0). pose proof (reachable_TI s0 R sid c0 F0) as T.
    assert (LG : exists m, log c0 = m ++ [Ask (Setup i0)]).
    { unfold TI in T. rewrite P in T. decompose [ex and] T. match goal with H : log c0 = _ |- _ => rewrite H end. eexists. rewrite ?app_assoc. reflexivity. }
    destruct LG as (m & LG). destruct (setUp sid ok i0 x rest c0 (reg s0)) as [q r] eqn:SU. apply fine_inj in E. apply eq_sym in E. apply U in E. subst q.
    assert (K : In i (granted (log c0)) -> In i (sinks c0)) by (apply (KEEP c0 F0); split; congruence).
    unfold setUp in SU. destruct ok; apply (f_equal fst) in SU; cbn [fst] in SU; subst c; rewrite next_log in G; cbn [say log] in G; rewrite (proj1 (proj2 (next_fields _ _))); cbn [sinks say].
    + rewrite LG, granted_yes in G. apply in_app_or in G. destruct G as [G|[<-|[]]]; [right; apply K; rewrite LG, granted_ask; exact G|left; reflexivity].
    + apply K. rewrite granted_no in G. exact G.
  - destruct (ph c0) eqn:P; try (destruct ok; exact (SAME E)). assert (R : reachable s0) by (exists h; exact R0). pose proof (reachable_TI s0 R sid c0 F0) as T.
    assert (LG : exists m, log c0 = m ++ [Ask Play]).
    { unfold TI in T. rewrite P in T. decompose [ex and] T. match goal with H : log c0 = _ |- _ => rewrite H end. eexists. rewrite ?app_assoc. reflexivity. }
    destruct LG as (m & LG). destruct ok.
    + destruct (delay (dur c0)); [|discriminate]. apply fine_inj in E. apply eq_sym in E. apply U in E. subst c. cbn [setAlarm to_ say log sinks] in *. apply (KEEP c0 F0); [split; congruence|]. rewrite LG, granted_play in G. rewrite LG, granted_ask. exact G.
    + exfalso. unfold update in E. destruct (shutdown _) as [q|] eqn:D; [|discriminate]. apply fine_inj in E. apply eq_sym in E. apply U in E. subst q. apply shutdown_some in D. subst c. apply G1. reflexivity.
  - destruct (ph c0) as [| | |[o|]| |] eqn:P; try exact (SAME E). exfalso. unfold update in E. destruct (shutdown _) as [q|] eqn:D; [|discriminate]. apply fine_inj in E. apply eq_sym in E. apply U in E. subst q. apply shutdown_some in D. subst c. apply G1. reflexivity.
  - destruct (alarm c0); [|exact (SAME E)].
    assert (E' : ph c0 <> PClosed /\ Fine (mkRx (reg s0) (mset sid (say [Ask KeepAlive] c0) (convs s0))) = Fine s) by (destruct (ph c0); try discriminate; split; try discriminate; exact E).
    destruct E' as (PC & E'). apply fine_inj in E'. apply eq_sym in E'. apply U in E'. subst c. cbn [say log sinks ph] in *. apply (KEEP c0 F0); [split; assumption|]. rewrite granted_ask in G. exact G.
  - destruct (isIn j (sinks c0)); [|exact (SAME E)]. destruct (closable c0 j); [|discriminate]. apply fine_inj in E. apply eq_sym in E. apply U in E. subst c. cbn [log sinks ph] in *.
    unfold drop. apply filter_In. split; [apply (KEEP c0 F0); [split; assumption|exact G]|]. apply negb_true_iff. apply Nat.eqb_neq. congruence.
  - unfold removeSession in E. destruct (ph c0) eqn:P; try discriminate; try exact (SAME E);
    (exfalso; destruct (removeAll sid (streams c0) s0) as [s1|] eqn:RM; [|discriminate]; pose proof (removeAll_alike _ _ _ _ RM sid) as RK; rewrite F0 in RK; destruct (mfind sid (convs s1)) as [c1|] eqn:F1; [|contradiction];
     apply fine_inj in E; subst s; unfold session in F; cbn [convs] in F; rewrite mfind_mset_eq in F; injection F as <-; apply G2; reflexivity).
Qed.
Theorem C96_received_partial h s sid c i : run rx0 h = Fine s -> apart s -> session s sid c ->
  (received s sid c i -> In i (granted (log c))) /\
  (In i (granted (log c)) -> goingOn c -> ~ In (sid, Bye i) h -> received s sid c i) /\
  (received s sid c i -> exists s' c', step s (sid, Bye i) = Fine s' /\ session s' sid c' /\ ~ received s' sid c' i /\ forall j, j <> i -> received s sid c j -> received s' sid c' j).
Proof.
  intros R0 A F. assert (R : reachable s) by (exists h; exact R0). pose proof (reachable_RI s R A) as RI. destruct (ri_conv s RI sid c F) as (C1 & C2 & C3 & C4 & C5 & C6). split; [|split].
  - intros (x & X1 & X2 & _). destruct (ri_own s RI _ _ _ X2) as (co & y & Y1 & Y2 & Y3 & Y4 & Y5 & _). unfold session in Y1, F. rewrite F in Y1. injection Y1 as <-. exact Y5.
  - intros G GO NB. destruct (C4 (proj2 GO) i G) as (x & X1 & X2 & X3 & X4). exists x. rewrite C1, C2. repeat (split; [assumption|]). split; [exact (open_sinks sid i h s c R0 NB F GO G)|]. split; intros [].
  - intros (x & X1 & X2 & X3 & X4 & X5 & X6). pose proof F as F0. unfold session in F0. unfold step. rewrite F0. assert (II : isIn i (sinks c) = true) by (apply isIn_iff; exact X4). rewrite II.
    assert (CL : closable c i = true) by (apply closable_iff; auto). rewrite CL. eexists. eexists. split; [reflexivity|]. split; [apply session_same|]. split.
    + intros (y & _ & _ & _ & Y & _). cbn [sinks] in Y. unfold drop in Y. apply filter_In in Y. destruct Y as (_ & Y). rewrite Nat.eqb_refl in Y. discriminate.
    + intros j N (y & Y1 & Y2 & Y3 & Y4 & Y5). exists y. cbn [streams reg stats sinks orphans dead]. repeat (split; [assumption|]). split; [|exact Y5]. unfold drop. apply filter_In. split; [exact Y4|]. apply negb_true_iff. apply Nat.eqb_neq. congruence.
Qed.
(* Once a session is removed none of its streams is at a port, and the other
   sessions keep theirs. *)
Theorem C96_removed_partial s sid c s' : reachable s -> apart s -> session s sid c -> step s (sid, Remove) = Fine s' ->
  (forall p i, mfind p (reg s') <> Some (sid, i)) /\ (forall k q, k <> sid -> session s k q -> session s' k q /\ forall i, received s k q i -> received s' k q i).
Proof.
  intros R A F E. pose proof (reachable_TI s R) as T. pose proof (reachable_RI s R A) as RI. pose proof F as F0. unfold session in F0. unfold step in E. rewrite F0 in E. unfold removeSession in E.
  assert (M : forall s1 q1, removeAll sid (streams c) s = Some s1 ->
    (forall p i, mfind p (reg s1) <> Some (sid, i)) /\ (forall k q, k <> sid -> session s k q -> session (mkRx (reg s1) (mset sid q1 (convs s1))) k q /\ forall i, received s k q i -> received (mkRx (reg s1) (mset sid q1 (convs s1))) k q i)).
  { intros s1 q1 RA. destruct (removeAll_reg sid (streams c) s s1 (ri_sorted s RI) RA) as (M1 & RG).
    assert (OO : forall x o j, In x (streams c) -> mfind (sport x) (reg s) = Some (o, j) -> o = sid).
    { intros x o j I' F'. destruct (ri_own s RI _ _ _ F') as (co & y & Y1 & Y2 & Y3 & Y4 & _). apply In_nth_error in I'. destruct I' as (n & I'). apply (A o co j y sid c n x Y1 F Y2 I' Y3 Y4). }
    pose proof (removeAll_others sid (streams c) s s1 (ri_sorted s RI) RA OO) as OT. split.
    - intros p i M. rewrite RG in M. destruct (existsb (fun x => sport x =? p) (streams c)) eqn:EX; [discriminate|]. destruct (ri_own s RI p sid i M) as (co & y & Y1 & Y2 & Y3 & Y4 & Y5 & Y6).
      unfold session in Y1. rewrite F0 in Y1. injection Y1 as <-. assert (existsb (fun x => sport x =? p) (streams c) = true); [|congruence]. apply existsb_exists. exists y. split; [eapply nth_error_In; exact Y2|apply Z.eqb_eq; exact Y4].
    - intros k q NK FK. split; [apply session_other; [exact NK|]; unfold session; rewrite OT by exact NK; exact FK|]. intros i (x & X1 & X2 & X3). exists x. split; [exact X1|]. split; [|exact X3]. cbn [reg]. rewrite RG.
      destruct (existsb _ _) eqn:EX; [|exact X2]. exfalso. apply existsb_exists in EX. destruct EX as (z & Z1 & Z2). apply Z.eqb_eq in Z2. rewrite <- Z2 in X2. apply NK. eapply OO; eassumption. }
  destruct (ph c) eqn:P; try discriminate;
  try (destruct (removeAll sid (streams c) s) as [s1|] eqn:RA; [|discriminate]; pose proof (removeAll_alike sid (streams c) s s1 RA sid) as AL; rewrite F0 in AL; destruct (mfind sid (convs s1)) as [c1|] eqn:F1; [|contradiction];
   apply fine_inj in E; subst s'; exact (M s1 _ eq_refl)).
  injection E as <-. split; [|auto]. intros p i M'. destruct (ri_own s RI p sid i M') as (co & y & Y1 & _ & _ & _ & _ & Y6). unfold session in Y1. rewrite F0 in Y1. injection Y1 as <-. contradiction.
Qed.
(* The program goes on, unless a session is removed before its server has
   described it, after it has been shut down, or after a stream ended; or a
   session that is kept alive was shut down; or the session is long. *)
Theorem C96_safe_partial s sid e : reachable s -> apart s -> step s (sid, e) = Crash ->
  exists c, session s sid c /\ ((e = Remove /\ (ph c = PDescribe \/ ph c = PClosed \/ exists i, In i (granted (log c)) /\ ~ In i (sinks c))) \/ (e = Alarm /\ ph c = PClosed /\ alarm c = true)).
Proof.
  intros R A E. pose proof (reachable_RI s R A) as RI. unfold step in E. destruct (mfind sid (convs s)) as [c|] eqn:F; [|destruct e; discriminate]. exists c. split; [exact F|].
  destruct (ri_conv s RI sid c F) as (C1 & C2 & C3 & C4 & C5 & C6).
  assert (SD : forall q, sinks q = sinks c -> orphans q = orphans c -> dead q = dead c -> shutdown q <> None).
  { intros q Q1 Q2 Q3. unfold shutdown. destruct (forallb (closable q) (sinks q)) eqn:X; [discriminate|]. exfalso. assert (forallb (closable q) (sinks q) = true); [|congruence].
    apply forallb_forall. intros j J. apply closable_iff. rewrite Q2, Q3, C1, C2. auto. }
  destruct e as [b|d|ok|ok| | |i|]; try discriminate.
  - destruct (ph c); try discriminate. exfalso. unfold described in E. destruct d as [[[l abs] t]|].
    + destruct l as [|y l]; [|discriminate]. match type of E with update _ (shutdown ?q) _ = _ => pose proof (SD q eq_refl eq_refl eq_refl) as X; destruct (shutdown q); [discriminate|congruence] end.
    + match type of E with update _ (shutdown ?q) _ = _ => pose proof (SD q eq_refl eq_refl eq_refl) as X; destruct (shutdown q); [discriminate|congruence] end.
  - destruct (ph c); try discriminate. destruct (setUp _ _ _ _ _ _ _); discriminate.
  - destruct (ph c); try (destruct ok; discriminate). destruct ok; [destruct (delay (dur c)); discriminate|]. exfalso.
    match type of E with update _ (shutdown ?q) _ = _ => pose proof (SD q eq_refl eq_refl eq_refl) as X; destruct (shutdown q); [discriminate|congruence] end.
  - destruct (ph c) as [| | |[o|]| |]; try discriminate. exfalso. pose proof (SD c eq_refl eq_refl eq_refl) as X. destruct (shutdown c); [discriminate|congruence].
  - destruct (alarm c) eqn:AL; [|discriminate]. destruct (ph c) eqn:P; try discriminate. right. auto.
  - exfalso. destruct (isIn i (sinks c)) eqn:II; [|discriminate]. destruct (closable c i) eqn:CL; [discriminate|]. assert (closable c i = true); [|congruence]. apply closable_iff. apply isIn_iff in II. rewrite C1, C2. auto.
  - left. split; [reflexivity|]. unfold removeSession in E.
    assert (M : ph c <> PGone -> removeAll sid (streams c) s = None -> exists i, In i (granted (log c)) /\ ~ In i (sinks c)).
    { intros PG N. destruct (forallb (fun i => isIn i (sinks c)) (granted (log c))) eqn:X.
      - exfalso. rewrite forallb_forall in X. destruct (removeAll_own sid (streams c) s c (ri_sorted s RI) F C1) as (s1 & Y); [| |congruence].
        + intros x o j I' F'. destruct (ri_own s RI _ _ _ F') as (co & y & Y1 & Y2 & Y3 & Y4 & Y5 & _). pose proof I' as I''. apply In_nth_error in I'. destruct I' as (n & I').
          destruct (A o co j y sid c n x Y1 F Y2 I' Y3 Y4) as (-> & _). unfold session in Y1. rewrite F in Y1. injection Y1 as <-. split; [reflexivity|]. split; [apply isIn_iff; apply X; exact Y5|rewrite C2; intros []].
        + intros p p' j P P'. destruct (ri_own s RI _ _ _ P) as (co & y & Y1 & Y2 & _ & Y4 & _). destruct (ri_own s RI _ _ _ P') as (co' & y' & Y1' & Y2' & _ & Y4' & _). unfold session in Y1, Y1'. congruence.
      - clear - X. induction (granted (log c)) as [|i l IH]; [discriminate|]. cbn [forallb] in X. destruct (isIn i (sinks c)) eqn:II.
        + destruct (IH X) as (j & J1 & J2). exists j. split; [right; exact J1|exact J2].
        + exists i. split; [left; reflexivity|]. intros C. apply isIn_iff in C. congruence. }
    destruct (ph c) eqn:P; try discriminate; auto;
    (right; right; apply M; [discriminate|]; destruct (removeAll sid (streams c) s) as [s1|]; [|reflexivity]; destruct (mfind sid (convs s1)); discriminate).
Qed.

(* How long a session plays: one of known length d is shut down d + 2 seconds
   after it started, to the microsecond below; one of unknown length is not. *)
Theorem C96_end s sid c : session s sid c -> ph c = PPlay -> ((dur c + 2) * 1000000 < inject_Z (2 ^ 32))%Q ->
  exists s' c' o, step s (sid, Played true) = Fine s' /\ session s' sid c' /\ ph c' = PPlaying o /\
    match o with Some us => (0 < dur c)%Q /\ (inject_Z us <= (dur c + 2) * 1000000)%Q /\ ((dur c + 2) * 1000000 < inject_Z us + 1)%Q | None => (dur c <= 0)%Q end.
Proof.
  intros F P B. unfold session in F. unfold step. rewrite F, P. unfold delay. destruct (Qle_bool (dur c) 0) eqn:D.
  - apply Qle_bool_iff in D. eexists. eexists. eexists. split; [reflexivity|]. split; [apply session_same|]. split; [reflexivity|exact D].
  - assert (D' : (0 < dur c)%Q). { apply Qnot_le_lt. intros C. apply Qle_bool_iff in C. congruence. }
    set (us := Qfloor ((dur c + 2) * 1000000)) in *.
    assert (U : us < 2 ^ 32). { rewrite Zlt_Qlt. eapply Qle_lt_trans; [apply Qfloor_le|exact B]. }
    apply Z.ltb_lt in U. rewrite U. eexists. eexists. eexists. split; [reflexivity|]. split; [apply session_same|]. split; [reflexivity|].
    cbn beta iota. split; [exact D'|]. split; [apply Qfloor_le|]. pose proof (Qlt_floor ((dur c + 2) * 1000000)) as X. fold us in X. rewrite inject_Z_plus in X. exact X.
Qed.
(* How long that is comes from the description alone, whatever happens
   between: its length if it has no absolute times. *)
Lemma next_dur rest : forall c, dur (next c rest) = dur c.
Proof. induction rest as [|[i x] r IH]; intros c; cbn [next]; [reflexivity|]. destruct (starts x); [reflexivity|apply IH]. Qed.
Lemma next_asked rest : forall c, ph (next c rest) <> PDescribe.
Proof. induction rest as [|[i x] r IH]; intros c; cbn [next]; [discriminate|]. destruct (starts x); [discriminate|apply IH]. Qed.
Lemma dur_step s x s' sid c : step s x = Fine s' -> session s sid c -> ph c <> PDescribe -> exists c', session s' sid c' /\ dur c' = dur c /\ ph c' <> PDescribe.
Proof.
  intros E F P. destruct x as [k e]. destruct (Z.eq_dec k sid) as [->|N].
  2:{ destruct (others_keep _ _ _ _ _ E N F) as (c1 & F1 & A1 & A2 & A3 & _). exists c1. split; [exact F1|]. split; congruence. }
  pose proof F as F0. unfold session in F0. unfold step in E. rewrite F0 in E.
  assert (SAME : Fine s = Fine s' -> exists c', session s' sid c' /\ dur c' = dur c /\ ph c' <> PDescribe) by (intros Q; injection Q as <-; exists c; auto).
  assert (SET : forall q r, dur q = dur c -> ph q <> PDescribe -> Fine (mkRx r (mset sid q (convs s))) = Fine s' -> exists c', session s' sid c' /\ dur c' = dur c /\ ph c' <> PDescribe).
  { intros q r D Q G. apply fine_inj in G. subst s'. exists q. split; [apply session_same|auto]. }
  assert (SD : forall q, dur q = dur c -> update sid (shutdown q) s = Fine s' -> exists c', session s' sid c' /\ dur c' = dur c /\ ph c' <> PDescribe).
  { intros q D G. unfold update in G. destruct (shutdown q) as [z|] eqn:Z; [|discriminate]. apply shutdown_some in Z. subst z. eapply SET; [| |exact G]; [exact D|discriminate]. }
  destruct e as [b|d|ok|ok| | |i|].
  - exact (SAME E).
  - destruct (ph c); try exact (SAME E). congruence.
  - destruct (ph c); try exact (SAME E). unfold setUp in E. destruct ok; (eapply SET; [| |exact E]; [rewrite next_dur; reflexivity|apply next_asked]).
  - destruct (ph c); try (destruct ok; exact (SAME E)). destruct ok; [|refine (SD _ _ E); reflexivity]. destruct (delay (dur c)); [|discriminate]. eapply SET; [| |exact E]; [reflexivity|discriminate].
  - destruct (ph c) as [| | |[o|]| |]; try exact (SAME E). refine (SD _ _ E); reflexivity.
  - destruct (alarm c); [|exact (SAME E)]. destruct (ph c) eqn:Q; try discriminate; (eapply SET; [| |exact E]; [reflexivity|cbn [say ph]; congruence]).
  - destruct (isIn i (sinks c)); [|exact (SAME E)]. destruct (closable c i); [|discriminate]. eapply SET; [| |exact E]; [reflexivity|exact P].
  - unfold removeSession in E. destruct (ph c); try discriminate; try exact (SAME E);
    (destruct (removeAll sid (streams c) s) as [s1|] eqn:RM; [|discriminate]; pose proof (removeAll_alike _ _ _ _ RM sid) as RA; rewrite F0 in RA; destruct (mfind sid (convs s1)) as [c1|] eqn:F1; [|contradiction];
     destruct RA as (_ & _ & A3 & _); apply fine_inj in E; subst s'; eexists; split; [apply session_same|]; split; [exact A3|discriminate]).
Qed.
Lemma dur_run sid : forall l s c s', run s l = Fine s' -> session s sid c -> ph c <> PDescribe -> exists c', session s' sid c' /\ dur c' = dur c.
Proof.
  induction l as [|x l IH]; intros s c s' R F P; cbn [run] in R; [injection R as <-; exists c; auto|]. destruct (step s x) as [s1| |] eqn:E; try discriminate.
  destruct (dur_step _ _ _ _ _ E F P) as (c1 & F1 & D1 & P1). destruct (IH _ _ _ R F1 P1) as (c2 & F2 & D2). exists c2. split; [exact F2|congruence].
Qed.
Lemma described_dur sid ds abs t : ds <> [] -> forall l s c s' more, session s sid c -> ph c = PDescribe -> eventsOf sid l = Described (Some (ds, abs, t)) :: more -> run s l = Fine s' ->
  exists c', session s' sid c' /\ dur c' = (if abs then 0 else t)%Q.
Proof.
  intros NE. induction l as [|e l IH]; intros s c s' more F P EV R; [discriminate|]. cbn [run] in R. destruct (step s e) as [s1| |] eqn:E; try discriminate.
  destruct (Z.eq_dec (fst e) sid) as [Q|Q].
  - destruct e as [k v]. cbn [fst] in Q. subst k. unfold eventsOf in EV. cbn [filter fst] in EV. rewrite Z.eqb_refl in EV. cbn [map snd] in EV. injection EV as -> EV.
    unfold step in E. unfold session in F. rewrite F, P in E. unfold described in E. destruct ds as [|y ds]; [congruence|]. unfold update in E. apply fine_inj in E. subst s1.
    destruct (dur_run sid l _ _ s' R (session_same _ _ _ _) (next_asked _ _)) as (c' & F' & D'). exists c'. split; [exact F'|]. rewrite D', next_dur. reflexivity.
  - destruct (others_keep _ _ _ _ _ E Q F) as (c1 & F1 & A1 & _). unfold eventsOf in EV. cbn [filter] in EV. destruct (Z.eqb_spec (fst e) sid) as [Q'|_]; [contradiction|].
    apply (IH s1 c1 s' more F1); auto. congruence.
Qed.
Theorem C96_length sid ds abs t answers l s c s' : reachable s -> session s sid c -> ph c = PDescribe -> ds <> [] -> List.length answers = List.length (receivable ds) ->
  eventsOf sid l = Described (Some (ds, abs, t)) :: map SetUp answers -> run s l = Fine s' -> ((t + 2) * 1000000 < inject_Z (2 ^ 32))%Q ->
  exists s2 c2 o, step s' (sid, Played true) = Fine s2 /\ session s2 sid c2 /\ ph c2 = PPlaying o /\
    match o with
    | Some us => abs = false /\ (0 < t)%Q /\ (inject_Z us <= (t + 2) * 1000000)%Q /\ ((t + 2) * 1000000 < inject_Z us + 1)%Q
    | None => abs = true \/ (t <= 0)%Q
    end.
Proof.
  intros RE F P NE L EV R B. destruct (C96_all_are_asked sid ds abs t answers l s c s' RE F P NE L EV R) as (c1 & F1 & P1 & _).
  destruct (described_dur sid ds abs t NE l s c s' _ F P EV R) as (c2 & F2 & D). assert (c2 = c1) by (unfold session in F1, F2; congruence). subst c2.
  assert (B1 : ((dur c1 + 2) * 1000000 < inject_Z (2 ^ 32))%Q) by (rewrite D; destruct abs; [reflexivity|exact B]).
  destruct (C96_end s' sid c1 F1 P1 B1) as (s2 & c2 & o & E & F3 & P3 & M). exists s2, c2, o. repeat (split; [assumption|]).
  rewrite D in M. destruct o as [us|], abs; [|auto|auto|auto]. destruct M as (M & _). exfalso. apply Qlt_irrefl in M. exact M.
Qed.
Definition ds1' : list stream := [mkS true 5004].
Example length_instance : exists s c s', reachable s /\ session s 1 c /\ ph c = PDescribe /\ run s [(1, Described (Some (ds1', false, 60%Q))); (1, SetUp true)] = Fine s' /\
  ((60 + 2) * 1000000 < inject_Z (2 ^ 32))%Q /\ List.length [true] = List.length (receivable ds1').
Proof. eexists. eexists. eexists. split; [exists [(1, Open true)]; reflexivity|]. split; [reflexivity|]. split; [reflexivity|]. split; [reflexivity|]. split; reflexivity. Qed.

(* How a session ends: its server has no description or one without streams,
   does not play it, or its time is over; then what is received of it is
   closed and, if anything was, the server told.  A removed session tells its
   server in any case. *)
Definition failed (e : event) (c : conv) : Prop :=
  match e with
  | Described None => ph c = PDescribe
  | Described (Some (l, _, _)) => ph c = PDescribe /\ l = []
  | Played false => ph c = PPlay
  | Expired => exists us, ph c = PPlaying (Some us)
  | _ => False
  end.
Definition reply (e : event) : list msg := match e with Described (Some _) => [Answer true] | Described None | Played _ => [Answer false] | _ => [] end.
Theorem C96_ends s sid c e s' : session s sid c -> failed e c -> step s (sid, e) = Fine s' ->
  reg s' = reg s /\ exists c', session s' sid c' /\ ph c' = PClosed /\ sinks c' = [] /\ log c' = log c ++ reply e ++ match sinks c with [] => [] | _ => [Ask Teardown] end.
Proof.
  intros F FL E. pose proof F as F0. unfold session in F0. unfold step in E. rewrite F0 in E.
  destruct e as [b|d|ok|ok| | |j|]; try contradiction.
  - destruct d as [[[l abs] t]|]; cbn [failed] in FL; [destruct FL as (P & ->)|rename FL into P]; rewrite P in E; unfold described, update in E;
    (destruct (shutdown _) as [q|] eqn:SD; [|discriminate]; apply shutdown_some in SD; apply fine_inj in E; subst q s'; split; [reflexivity|]; eexists; split; [apply session_same|]; cbn [ph sinks log say reply]; split; [reflexivity|]; split; [reflexivity|]; rewrite <- app_assoc; reflexivity).
  - destruct ok; [contradiction|]. cbn [failed] in FL. rewrite FL in E. unfold update in E.
    destruct (shutdown _) as [q|] eqn:SD; [|discriminate]. apply shutdown_some in SD. apply fine_inj in E. subst q s'. split; [reflexivity|]. eexists. split; [apply session_same|]. cbn [ph sinks log say reply]. split; [reflexivity|]. split; [reflexivity|]. rewrite <- app_assoc. reflexivity.
  - destruct FL as (us & P). rewrite P in E. unfold update in E. destruct (shutdown _) as [q|] eqn:SD; [|discriminate]. apply shutdown_some in SD. apply fine_inj in E. subst q s'. split; [reflexivity|]. eexists. split; [apply session_same|]. auto.
Qed.
Theorem C96_told_of_removal s sid c s' : session s sid c -> ph c <> PGone -> step s (sid, Remove) = Fine s' ->
  exists c', session s' sid c' /\ ph c' = PGone /\ sinks c' = [] /\ alarm c' = false /\ log c' = log c ++ [Ask Teardown].
Proof.
  intros F PG E. unfold session in F. unfold step in E. rewrite F in E. unfold removeSession in E. destruct (ph c) eqn:P; try discriminate; try congruence;
  (destruct (removeAll sid (streams c) s) as [s1|] eqn:RM; [|discriminate]; pose proof (removeAll_alike _ _ _ _ RM sid) as RK; rewrite F in RK; destruct (mfind sid (convs s1)) as [c1|] eqn:F1; [|contradiction];
   apply fine_inj in E; subst s'; eexists; split; [apply session_same|]; cbn [ph sinks alarm log]; destruct RK as (_ & _ & _ & -> & _); auto).
Qed.
(* Only sessions added to be kept alive are, and only once they play. *)
Lemma kept_step s sid c e s' c' : TIall s -> session s sid c -> step s (sid, e) = Fine s' -> session s' sid c' ->
  keep c' = keep c /\ (alarm c' = true -> alarm c = true \/ keep c = true) /\ (In (Ask KeepAlive) (log c') -> In (Ask KeepAlive) (log c) \/ alarm c = true).
Proof.
  intros T F E F'. pose proof F as F0. unfold session in F0. unfold step in E. rewrite F0 in E.
  assert (SAME : Fine s = Fine s' -> keep c' = keep c /\ (alarm c' = true -> alarm c = true \/ keep c = true) /\ (In (Ask KeepAlive) (log c') -> In (Ask KeepAlive) (log c) \/ alarm c = true)).
  { intros Q. injection Q as <-. unfold session in F'. rewrite F0 in F'. injection F' as <-. auto. }
  assert (U : forall q r, Fine (mkRx r (mset sid q (convs s))) = Fine s' -> q = c').
  { intros q r Q. apply fine_inj in Q. subst s'. unfold session in F'. cbn [convs] in F'. rewrite mfind_mset_eq in F'. congruence. }
  assert (NK : forall q rest, (In (Ask KeepAlive) (log (next q rest)) -> In (Ask KeepAlive) (log q))).
  { intros q rest. destruct (next_spec q rest) as [(d & i & x & r & _ & _ & _ & ->)|(_ & ->)]; cbn [to_ say log]; intros C; apply in_app_or in C; (destruct C as [C|[C|[]]]; [exact C|discriminate]). }
  assert (SD : forall q q', shutdown q = Some q' -> q' = c' -> keep q = keep c -> alarm q = alarm c -> (In (Ask KeepAlive) (log q) -> In (Ask KeepAlive) (log c)) ->
    keep c' = keep c /\ (alarm c' = true -> alarm c = true \/ keep c = true) /\ (In (Ask KeepAlive) (log c') -> In (Ask KeepAlive) (log c) \/ alarm c = true)).
  { intros q q' Q <- K1 K2 K3. apply shutdown_some in Q. subst q'. cbn [keep alarm log]. split; [exact K1|]. split; [rewrite K2; auto|]. intros C. apply in_app_or in C. destruct C as [C|C]; [left; auto|]. destruct (sinks q); [destruct C|destruct C as [C|[]]; discriminate]. }
  assert (AN : forall (b : bool) m, In (Ask KeepAlive) (m ++ [Answer b]) -> In (Ask KeepAlive) m) by (intros b m C; apply in_app_or in C; destruct C as [C|[C|[]]]; [exact C|discriminate]).
  destruct e as [b|d|ok|ok| | |j|].
  - exact (SAME E).
  - destruct (ph c) eqn:P; try exact (SAME E). unfold update in E. destruct (described d c) as [q|] eqn:D; [|discriminate]. apply U in E. unfold described in D. destruct d as [[[l abs] t]|].
    + destruct l as [|y l]; [eapply SD; [exact D|exact E|reflexivity|reflexivity|cbn [log]; apply AN]|]. apply (f_equal (fun o => match o with Some z => z | None => c end)) in D. cbv beta iota in D. subst q c'.
      match goal with |- context [next ?q ?r] => destruct (next_fields q r) as (N1 & N2 & N3 & N4 & N5 & N6 & N7 & N8 & N9); rewrite N6, N7; cbn [keep alarm]; split; [reflexivity|]; split; [auto|]; intros C; left; apply NK in C; cbn [log] in C; exact (AN _ _ C) end.
    + eapply SD; [exact D|exact E|reflexivity|reflexivity|cbn [say log]; apply AN].
  - destruct (ph c) eqn:P; try exact (SAME E). destruct (setUp sid ok i x rest c (reg s)) as [q r] eqn:SU. apply U in E. subst q. unfold setUp in SU.
    destruct ok; apply (f_equal fst) in SU; cbn [fst] in SU; subst c';
    match goal with |- context [next ?q ?r] => destruct (next_fields q r) as (N1 & N2 & N3 & N4 & N5 & N6 & N7 & N8 & N9); rewrite N6, N7; cbn [say keep alarm]; split; [reflexivity|]; split; [auto|]; intros C; left; apply NK in C; cbn [say log] in C; exact (AN _ _ C) end.
  - destruct (ph c) eqn:P; try (destruct ok; exact (SAME E)). destruct ok.
    + destruct (delay (dur c)); [|discriminate]. apply U in E. subst c'. cbn [setAlarm to_ say keep alarm log]. split; [reflexivity|]. split; [auto|]. intros C. left. exact (AN _ _ C).
    + unfold update in E. destruct (shutdown _) as [q|] eqn:D; [|discriminate]. apply U in E. eapply SD; [exact D|exact E|reflexivity|reflexivity|cbn [say log]; apply AN].
  - destruct (ph c) as [| | |[o|]| |] eqn:P; try exact (SAME E). unfold update in E. destruct (shutdown _) as [q|] eqn:D; [|discriminate]. apply U in E. eapply SD; [exact D|exact E|reflexivity|reflexivity|auto].
  - destruct (alarm c) eqn:AL; [|exact (SAME E)].
    assert (E' : say [Ask KeepAlive] c = c') by (destruct (ph c); try discriminate; eapply U; exact E). subst c'. cbn [say keep alarm log]. auto.
  - destruct (isIn j (sinks c)); [|exact (SAME E)]. destruct (closable c j); [|discriminate]. apply U in E. subst c'. cbn [keep alarm log]. auto.
  - unfold removeSession in E. destruct (ph c) eqn:P; try discriminate; try exact (SAME E);
    (destruct (removeAll sid (streams c) s) as [s1|] eqn:RM; [|discriminate]; pose proof (removeAll_alike _ _ _ _ RM sid) as RK; rewrite F0 in RK; destruct (mfind sid (convs s1)) as [c1|] eqn:F1; [|contradiction];
     apply fine_inj in E; subst s'; unfold session in F'; cbn [convs] in F'; rewrite mfind_mset_eq in F'; injection F' as <-; cbn [keep alarm log]; destruct RK as (_ & _ & _ & -> & _ & _ & -> & _); split; [reflexivity|]; split; [discriminate|];
     intros C; apply in_app_or in C; destruct C as [C|[C|[]]]; [auto|discriminate]).
Qed.
Lemma new_session s x s' sid c : step s x = Fine s' -> mfind sid (convs s) = None -> session s' sid c -> exists k, x = (sid, Open k) /\ c = conv0 k.
Proof.
  intros E F0 F. destruct x as [k v]. destruct (Z.eq_dec k sid) as [->|N].
  - unfold step in E. rewrite F0 in E. destruct v as [b|d|ok|ok| | |j|]; try (injection E as <-; unfold session in F; congruence). injection E as <-. unfold session in F. cbn [convs] in F. rewrite mfind_mset_eq in F. exists b. split; [reflexivity|congruence].
  - exfalso. assert (mfind sid (convs s') = None); [|unfold session in F; congruence]. exact (absent_stays s k v s' sid E F0 N).
Qed.
Theorem C96_kept_alive h s sid c : run rx0 h = Fine s -> session s sid c -> In (Ask KeepAlive) (log c) -> In (sid, Open true) h.
Proof.
  intros R F K. enough (G : forall h s sid c, run rx0 h = Fine s -> session s sid c -> (keep c = true -> In (sid, Open true) h) /\ (alarm c = true \/ In (Ask KeepAlive) (log c) -> keep c = true)).
  { destruct (G h s sid c R F) as (G1 & G2). auto. }
  clear. induction h as [|e h IH] using rev_ind; intros s sid c R F; [injection R as <-; discriminate|].
  destruct (run_snoc _ _ _ _ R) as (s0 & R0 & E). destruct (mfind sid (convs s0)) as [c0|] eqn:F0.
  - destruct (IH s0 sid c0 R0 F0) as (I1 & I2). assert (A : keep c = keep c0 /\ (alarm c = true -> alarm c0 = true \/ keep c0 = true) /\ (In (Ask KeepAlive) (log c) -> In (Ask KeepAlive) (log c0) \/ alarm c0 = true)).
    { destruct e as [k v]. destruct (Z.eq_dec k sid) as [->|N].
      - eapply kept_step; [|exact F0|exact E|exact F]. apply reachable_TI. exists h. exact R0.
      - destruct (others_keep _ _ _ sid c0 E N F0) as (c1 & F1 & A1 & A2 & A3 & A4 & A5 & A6 & A7 & A8). unfold session in F, F1. rewrite F in F1. injection F1 as <-. rewrite A4, A7, A8. auto. }
    destruct A as (A1 & A2 & A3). split; [intros K; apply in_or_app; left; apply I1; congruence|]. rewrite A1. intros [C|C]; [destruct (A2 C); auto|destruct (A3 C); auto].
  - destruct (new_session _ _ _ _ _ E F0 F) as (k & -> & ->). cbn [conv0 keep alarm log]. split; [intros ->; apply in_or_app; right; left; reflexivity|]. intros [C|[C|[]]]; discriminate.
Qed.
(* A session of an hour and twelve minutes or more: the delay is beyond the
   numbers it is converted to, and what happens is undefined. *)
Theorem C96_long_refuted s sid c : session s sid c -> ph c = PPlay -> (4293 <= dur c)%Q -> step s (sid, Played true) = Undefined.
Proof.
  intros F P B. unfold session in F. unfold step. rewrite F, P. unfold delay. destruct (Qle_bool (dur c) 0) eqn:D; [apply Qle_bool_iff in D; lra|].
  destruct (Qfloor ((dur c + 2) * 1000000) <? 2 ^ 32) eqn:U; [|reflexivity]. exfalso. apply Z.ltb_lt in U. pose proof (Qlt_floor ((dur c + 2) * 1000000)) as X.
  assert (Y : (inject_Z (Qfloor ((dur c + 2) * 1000000) + 1) <= inject_Z (2 ^ 32))%Q) by (rewrite <- Zle_Qle; lia).
  change (inject_Z (2 ^ 32)) with (4294967296 # 1)%Q in Y. lra.
Qed.
(* Playing is asked for although the server has agreed to no stream. *)
Theorem C96_nothing_to_play_refuted sid ds abs t : forall s c l s', reachable s -> session s sid c -> ph c = PDescribe -> ds <> [] ->
  eventsOf sid l = Described (Some (ds, abs, t)) :: repeat (SetUp false) (List.length (receivable ds)) -> run s l = Fine s' ->
  exists c', session s' sid c' /\ granted (log c') = [] /\ exists m, log c' = m ++ [Ask Play].
Proof.
  intros s c l s' R F P NE EV E. set (n := List.length (receivable ds)) in *.
  assert (MR : map SetUp (repeat false n) = repeat (SetUp false) n) by (clear; induction n as [|n IH]; [reflexivity|cbn; f_equal; exact IH]).
  rewrite <- MR in EV. destruct (C96_all_are_asked sid ds abs t (repeat false n) l s c s' R F P NE) as (c' & C1 & C2 & C3 & C4); [apply repeat_length|exact EV|exact E|].
  exists c'. split; [exact C1|]. split; [|exists ([Ask Describe; Answer true] ++ exchanges (receivable ds) (repeat false n)); rewrite C4, <- app_assoc; reflexivity].
  rewrite C4, app_assoc, granted_ask. unfold n. clear. generalize (receivable ds) as is. intros is.
  assert (G : forall is st, fst st = None -> fold_left heard (exchanges is (repeat false (List.length is))) st = st).
  { clear. induction is as [|i is IH]; intros [o q] H; [reflexivity|]. cbn in H. subst o. cbn [List.length repeat]. unfold exchanges. cbn [combine flat_map fst snd app fold_left heard]. fold (exchanges is (repeat false (List.length is))). apply IH. reflexivity. }
  unfold granted. rewrite fold_left_app. rewrite G; reflexivity.
Qed.
(* A stream at a port that is in use: the server sends it, but nobody receives
   it, and shutting the session down uses memory that was given back. *)
Theorem C96_port_in_use_refuted s sid c i x rest v s' : session s sid c -> ph c = PSetup i x rest -> mfind (sport x) (reg s) = Some v -> fst v <> sid ->
  step s (sid, SetUp true) = Fine s' -> exists c', session s' sid c' /\ ~ received s' sid c' i /\ In i (sinks c') /\
    forall q, sinks q = sinks c' -> orphans q = orphans c' -> shutdown q = None.
Proof.
  intros F P M N E. unfold session in F. unfold step in E. rewrite F, P in E. unfold setUp in E. unfold mmem in E. rewrite M in E. rewrite andb_false_r in E. apply fine_inj in E. subst s'.
  match goal with |- context [mset sid (next ?q rest) (convs s)] => set (c1 := q) end. destruct (next_fields c1 rest) as (N1 & N2 & N3 & N4 & N5 & N6 & N7 & N8 & N9).
  exists (next c1 rest). split; [apply session_same|]. split; [|split].
  - intros (y & _ & _ & _ & _ & O & _). apply O. rewrite N3. left. reflexivity.
  - rewrite N2. left. reflexivity.
  - intros q Q1 Q2. unfold shutdown. destruct (forallb (closable q) (sinks q)) eqn:X; [|reflexivity]. exfalso. rewrite forallb_forall in X.
    assert (C : closable q i = true) by (apply X; rewrite Q1, N2; left; reflexivity). apply closable_iff in C. destruct C as (_ & C & _). apply C. rewrite Q2, N3. left. reflexivity.
Qed.
(* Removing a session that has a stream at the port of a stream of another
   session ends the other's. *)
Theorem C96_removal_refuted s sid c o co j x s' : msorted (reg s) -> session s sid c -> ph c <> PGone -> In x (streams c) -> mfind (sport x) (reg s) = Some (o, j) -> o <> sid ->
  session s o co -> (exists y, nth_error (streams co) j = Some y /\ sport y = sport x) -> step s (sid, Remove) = Fine s' -> exists co', session s' o co' /\ ph co' = ph co /\ ~ received s' o co' j.
Proof.
  intros M F PG I' FX NO FO (y & Y1 & Y2) E. pose proof F as F0. unfold session in F0. unfold step in E. rewrite F0 in E. unfold removeSession in E.
  assert (G : forall s1 q, removeAll sid (streams c) s = Some s1 -> exists co', session (mkRx (reg s1) (mset sid q (convs s1))) o co' /\ ph co' = ph co /\ ~ received (mkRx (reg s1) (mset sid q (convs s1))) o co' j).
  { intros s1 q RA. destruct (removeAll_reg sid (streams c) s s1 M RA) as (_ & RG). pose proof (removeAll_alike sid (streams c) s s1 RA o) as AL. unfold session in FO. rewrite FO in AL.
    destruct (mfind o (convs s1)) as [co'|] eqn:F1; [|contradiction]. exists co'. split; [apply session_other; [exact NO|exact F1]|]. split; [apply AL|]. intros (z & Z1 & Z2 & _). destruct AL as (_ & ST & _).
    rewrite ST, Y1 in Z1. injection Z1 as <-. cbn [reg] in Z2. rewrite RG in Z2. destruct (existsb (fun x0 => sport x0 =? sport y) (streams c)) eqn:EX; [discriminate|].
    assert (existsb (fun x0 => sport x0 =? sport y) (streams c) = true); [|congruence]. apply existsb_exists. exists x. split; [exact I'|apply Z.eqb_eq; symmetry; exact Y2]. }
  destruct (ph c) eqn:P; try discriminate; try congruence;
  (destruct (removeAll sid (streams c) s) as [s1|] eqn:RA; [|discriminate]; pose proof (removeAll_alike sid (streams c) s s1 RA sid) as AL; rewrite F0 in AL; destruct (mfind sid (convs s1)) as [c1|] eqn:F1; [|contradiction];
   apply fine_inj in E; subst s'; exact (G s1 _ eq_refl)).
Qed.
(* A session of known length that is kept alive: after its end the client that
   was closed is used. *)
Theorem C96_kept_alive_refuted s sid c us s' : session s sid c -> ph c = PPlaying (Some us) -> alarm c = true -> step s (sid, Expired) = Fine s' -> step s' (sid, Alarm) = Crash.
Proof.
  intros F P A E. unfold session in F. unfold step in E. rewrite F, P in E. destruct (shutdown c) as [c'|] eqn:SD; [|discriminate]. injection E as <-. rewrite (shutdown_some _ _ SD).
  unfold step. cbn [convs]. rewrite mfind_mset_eq. cbn [alarm ph]. rewrite A. reflexivity.
Qed.

(* Two sessions: the first has three streams of which one cannot be received
   and one is refused; the second is asked for meanwhile. *)
Definition ds1 : list stream := [mkS true 5004; mkS false 0; mkS true 5006].
Definition history1 : list (Z * event) := [(1, Open true); (2, Open false); (1, Described (Some (ds1, false, 60%Q))); (1, SetUp false); (2, Described (Some ([mkS true 5008], true, 0%Q))); (1, SetUp true); (2, SetUp true); (1, Played true)].
Example history1_instance : exists s c, run rx0 history1 = Fine s /\ session s 1 c /\ ph c = PPlaying (Some 62000000) /\ alarm c = true /\ granted (log c) = [2]%nat /\ received s 1 c 2 /\ reachable s /\ apart s.
Proof.
  eexists. eexists. split; [vm_compute; reflexivity|]. split; [reflexivity|]. split; [reflexivity|]. split; [reflexivity|]. split; [reflexivity|]. split; [|split].
  - exists (mkS true 5006). cbn. split; [reflexivity|]. split; [reflexivity|]. auto 12.
  - exists history1. vm_compute. reflexivity.
  - intros s1 c1 i1 x1 s2 c2 i2 x2 F1 F2 N1 N2 S P. unfold session in F1, F2. cbn [convs mfind] in F1, F2.
    destruct (Z.eqb_spec s1 1); [|destruct (Z.eqb_spec s1 2); [|discriminate]]; (destruct (Z.eqb_spec s2 1); [|destruct (Z.eqb_spec s2 2); [|discriminate]]);
    injection F1 as <-; injection F2 as <-; cbn [streams] in N1, N2;
    (destruct i1 as [|[|[|[|i1]]]]; cbn [nth_error] in N1; try discriminate; destruct i2 as [|[|[|[|i2]]]]; cbn [nth_error] in N2; try discriminate;
     injection N1 as <-; injection N2 as <-; cbn [starts sport] in *; try discriminate; subst; auto).
Qed.
Example kept_instance : exists s c, run rx0 (history1 ++ [(1, Alarm)]) = Fine s /\ session s 1 c /\ In (Ask KeepAlive) (log c) /\ failed Expired c /\ exists s', step s (1, Expired) = Fine s'.
Proof. eexists. eexists. split; [vm_compute; reflexivity|]. split; [reflexivity|]. split; [cbn; auto 20|]. split; [eexists; reflexivity|]. eexists. vm_compute. reflexivity. Qed.
(* Two sessions with a stream at the same port. *)
Definition history2 : list (Z * event) := [(1, Open true); (1, Described (Some ([mkS true 5004], false, 0%Q))); (1, SetUp true); (1, Played true); (2, Open true); (2, Described (Some ([mkS true 5004], false, 0%Q)))].
Example history2_instance : exists s c co, run rx0 history2 = Fine s /\ session s 2 c /\ ph c = PSetup 0 (mkS true 5004) [] /\ mfind 5004 (reg s) = Some (1, 0%nat) /\ session s 1 co /\ received s 1 co 0 /\
  (exists s', step s (2, SetUp true) = Fine s') /\ (exists s', step s (2, Remove) = Fine s').
Proof.
  eexists. eexists. eexists. split; [vm_compute; reflexivity|]. split; [reflexivity|]. split; [reflexivity|]. split; [reflexivity|]. split; [reflexivity|]. split; [|split; eexists; vm_compute; reflexivity].
  exists (mkS true 5004). cbn. auto 12.
Qed.
Print Assumptions C96_conversation.
Print Assumptions C96_all_are_asked.
Print Assumptions C96_received_partial.
Print Assumptions C96_removed_partial.
Print Assumptions C96_safe_partial.
Print Assumptions C96_end.
Print Assumptions C96_length.
Print Assumptions C96_ends.
Print Assumptions C96_told_of_removal.
Print Assumptions C96_kept_alive.
Print Assumptions C96_long_refuted.
Print Assumptions C96_nothing_to_play_refuted.
Print Assumptions C96_port_in_use_refuted.
Print Assumptions C96_removal_refuted.
Print Assumptions C96_kept_alive_refuted.
