(* The register of ports, when no two streams have the same port. *)
From Coq Require Import ZArith QArith List Bool Lia.
From Verif Require Import ZMap StuModel StuSpec StuProofs.
Import ListNotations.
Local Open Scope list_scope.
Local Open Scope Z_scope.

Lemma isIn_iff i l : isIn i l = true <-> In i l.
Proof.
  unfold isIn. rewrite existsb_exists. split; [intros (x & A & B); apply Nat.eqb_eq in B; subst; exact A|]. intros A. exists i. split; [exact A|apply Nat.eqb_refl].
Qed.
Lemma closable_iff c i : closable c i = true <-> In i (sinks c) /\ ~ In i (orphans c) /\ ~ In i (dead c).
Proof.
  unfold closable. rewrite !andb_true_iff, !negb_true_iff, isIn_iff. split.
  - intros ((A & B) & C). split; [exact A|]. split; intros X; apply isIn_iff in X; congruence.
  - intros (A & B & C). split; [split; [exact A|]|].
    + destruct (isIn i (orphans c)) eqn:E; [apply isIn_iff in E; contradiction|reflexivity].
    + destruct (isIn i (dead c)) eqn:E; [apply isIn_iff in E; contradiction|reflexivity].
Qed.

(* ** Removing *)
Lemma removeAll_reg sid l : forall s s', msorted (reg s) -> removeAll sid l s = Some s' ->
  msorted (reg s') /\ forall p, mfind p (reg s') = if existsb (fun x => sport x =? p) l then None else mfind p (reg s).
Proof.
  induction l as [|x r IH]; intros s s' M H; [injection H as <-; split; [exact M|reflexivity]|]. cbn [removeAll] in H.
  destruct (mfind (sport x) (reg s)) as [[o j]|] eqn:FX.
  - destruct (mfind o (convs s)) as [co|]; [|discriminate]. destruct (closable co j); [|discriminate].
    match type of H with removeAll _ _ ?q = _ => assert (R : reg q = mdel (sport x) (reg s)) by (destruct (mfind sid _); reflexivity); set (s1 := q) in * end.
    assert (M1 : msorted (reg s1)) by (rewrite R; apply msorted_mdel; exact M).
    destruct (IH s1 s' M1 H) as (A & B). split; [exact A|]. intros p. rewrite B, R, mfind_mdel by exact M. cbn [existsb].
    destruct (Z.eqb_spec (sport x) p) as [E|E]; destruct (Z.eqb_spec p (sport x)) as [E'|E']; subst; try congruence; cbn [orb]; destruct (existsb _ r); reflexivity.
  - destruct (IH s s' M H) as (A & B). split; [exact A|]. intros p. rewrite B. cbn [existsb]. destruct (Z.eqb_spec (sport x) p) as [E|E]; [|reflexivity]. subst p. cbn [orb]. rewrite FX. destruct (existsb _ r); reflexivity.
Qed.
Lemma removeAll_others sid l : forall s s', msorted (reg s) -> removeAll sid l s = Some s' ->
  (forall x o j, In x l -> mfind (sport x) (reg s) = Some (o, j) -> o = sid) -> forall k, k <> sid -> mfind k (convs s') = mfind k (convs s).
Proof.
  induction l as [|x r IH]; intros s s' M H O k K; [injection H as <-; reflexivity|]. cbn [removeAll] in H.
  destruct (mfind (sport x) (reg s)) as [[o j]|] eqn:FX.
  - destruct (mfind o (convs s)) as [co|]; [|discriminate]. destruct (closable co j); [|discriminate].
    assert (o = sid) by (eapply O; [left; reflexivity|exact FX]). subst o.
    match type of H with removeAll _ _ ?q = _ => assert (R : reg q = mdel (sport x) (reg s)) by (destruct (mfind sid _); reflexivity); set (s1 := q) in * end.
    rewrite (IH s1 s').
    + unfold s1. destruct (mfind sid _); cbn [convs]; repeat (rewrite mfind_mset; destruct (Z.eqb_spec k sid); [congruence|]); reflexivity.
    + rewrite R. apply msorted_mdel. exact M.
    + exact H.
    + intros y o j' I F. rewrite R, mfind_mdel in F by exact M. destruct (sport y =? sport x); [discriminate|]. eapply O; [right; exact I|exact F].
    + exact K.
  - apply (IH s s' M H); [|exact K]. intros y o j I F. eapply O; [right; exact I|exact F].
Qed.
Lemma removeAll_own sid l : forall s c, msorted (reg s) -> session s sid c -> orphans c = [] ->
  (forall x o j, In x l -> mfind (sport x) (reg s) = Some (o, j) -> o = sid /\ In j (sinks c) /\ ~ In j (dead c)) ->
  (forall p p' j, mfind p (reg s) = Some (sid, j) -> mfind p' (reg s) = Some (sid, j) -> p = p') -> exists s', removeAll sid l s = Some s'.
Proof.
  induction l as [|x r IH]; intros s c M F OC O J; [eexists; reflexivity|]. cbn [removeAll].
  destruct (mfind (sport x) (reg s)) as [[o j]|] eqn:FX.
  - destruct (O x o j (or_introl eq_refl) FX) as (-> & SJ & DJ). unfold session in F. rewrite F.
    assert (CL : closable c j = true) by (apply closable_iff; rewrite OC; auto). rewrite CL. cbn [convs reg]. rewrite mfind_mset_eq.
    cbn [ph streams dur log sinks orphans dead stats keep alarm].
    match goal with |- exists s', removeAll _ _ (mkRx _ (mset _ ?q _)) = _ => set (c2 := q) end.
    apply (IH _ c2); cbn [reg convs].
    + apply msorted_mdel. exact M.
    + unfold session. cbn [convs]. apply mfind_mset_eq.
    + exact OC.
    + intros y o j' I' F'. rewrite mfind_mdel in F' by exact M. destruct (Z.eqb_spec (sport y) (sport x)) as [E|E]; [discriminate|].
      destruct (O y o j' (or_intror I') F') as (-> & S' & D'). split; [reflexivity|]. split; [exact S'|]. unfold c2. cbn [dead]. intros [X|X]; [|contradiction]. subst j'.
      apply E. apply (J _ _ j); assumption.
    + intros p p' j' P P'. rewrite mfind_mdel in P by exact M. rewrite mfind_mdel in P' by exact M. destruct (p =? sport x); [discriminate|]. destruct (p' =? sport x); [discriminate|]. eapply J; eauto.
  - apply (IH s c M F OC); [|exact J]. intros y o j I' F'. apply (O y o j (or_intror I') F').
Qed.

(* ** The register and the sessions *)
Definition CI (s : rx) (sid : Z) (c : conv) : Prop :=
  orphans c = [] /\ dead c = [] /\ incl (sinks c) (granted (log c)) /\
  (ph c <> PGone -> forall i, In i (granted (log c)) -> exists x, nth_error (streams c) i = Some x /\ starts x = true /\ mfind (sport x) (reg s) = Some (sid, i) /\ In (sport x) (stats c)) /\
  (ph c <> PGone -> forall p, In p (stats c) -> exists i x, In i (granted (log c)) /\ nth_error (streams c) i = Some x /\ sport x = p) /\
  match ph c with
  | PSetup i x rest => exists d, numbered (streams c) = d ++ (i, x) :: rest /\ incl (granted (log c)) (map fst d) /\ starts x = true
  | PDescribe => granted (log c) = []
  | PGone => sinks c = []
  | _ => True
  end.
Record RI (s : rx) : Prop := {
  ri_sorted : msorted (reg s);
  ri_own : forall p o j, mfind p (reg s) = Some (o, j) -> exists co x, session s o co /\ nth_error (streams co) j = Some x /\ starts x = true /\ sport x = p /\ In j (granted (log co)) /\ ph co <> PGone;
  ri_conv : forall sid c, session s sid c -> CI s sid c
}.
Lemma session_set s k c r j c' : session (mkRx r (mset k c (convs s))) j c' -> (j = k /\ c' = c) \/ (j <> k /\ session s j c').
Proof. unfold session. cbn [convs]. rewrite mfind_mset. destruct (Z.eqb_spec j k); [intros H; injection H as <-; auto|auto]. Qed.
Lemma session_same s k c r : session (mkRx r (mset k c (convs s))) k c.
Proof. unfold session. cbn [convs]. apply mfind_mset_eq. Qed.
Lemma session_other s k c r j c' : j <> k -> session s j c' -> session (mkRx r (mset k c (convs s))) j c'.
Proof. intros N H. unfold session in *. cbn [convs]. rewrite mfind_mset_neq by exact N. exact H. Qed.
(* A session changes, the register does not. *)
Lemma RI_set s sid c c' : RI s -> session s sid c -> CI s sid c' -> ph c' <> PGone ->
  (forall j x, In j (granted (log c)) -> nth_error (streams c) j = Some x -> nth_error (streams c') j = Some x /\ In j (granted (log c'))) ->
  RI (mkRx (reg s) (mset sid c' (convs s))).
Proof.
  intros [M O C] F CC PG K. constructor; cbn [reg].
  - exact M.
  - intros p o j E. destruct (O p o j E) as (co & x & S1 & S2 & S3 & S4 & S5 & S6). destruct (Z.eq_dec o sid) as [->|N].
    + unfold session in S1, F. rewrite F in S1. injection S1 as <-. destruct (K j x S5 S2) as (K1 & K2). exists c', x. split; [apply session_same|]. auto.
    + exists co, x. split; [apply session_other; assumption|]. auto.
  - intros k q H. apply session_set in H. destruct H as [[-> ->]|[N H]]; [exact CC|exact (C k q H)].
Qed.
Lemma RI_new s sid k : RI s -> mfind sid (convs s) = None -> RI (mkRx (reg s) (mset sid (conv0 k) (convs s))).
Proof.
  intros [M O C] F. constructor; cbn [reg].
  - exact M.
  - intros p o j E. destruct (O p o j E) as (co & x & S1 & S2). exists co, x. split; [|exact S2]. apply session_other; [|exact S1]. intros ->. unfold session in S1. congruence.
  - intros q c H. apply session_set in H. destruct H as [[-> ->]|[N H]]; [|exact (C q c H)].
    unfold CI. cbn [conv0 ph streams log sinks orphans dead stats]. split; [reflexivity|]. split; [reflexivity|]. split; [intros ? []|]. split; [intros _ ? []|]. split; [intros _ ? []|reflexivity].
Qed.
Lemma granted_ask m r : granted (m ++ [Ask r]) = granted m.
Proof. rewrite !granted_ear, ear_snoc. destruct r; reflexivity. Qed.
Lemma granted_no m : granted (m ++ [Answer false]) = granted m.
Proof. rewrite !granted_ear, ear_snoc. reflexivity. Qed.
Lemma granted_yes m i : granted ((m ++ [Ask (Setup i)]) ++ [Answer true]) = granted m ++ [i].
Proof. rewrite !granted_ear, !ear_snoc. reflexivity. Qed.
Lemma granted_play m b : granted ((m ++ [Ask Play]) ++ [Answer b]) = granted m.
Proof. rewrite !granted_ear, !ear_snoc. destruct b; reflexivity. Qed.
Lemma granted_end m (l : list nat) : granted (m ++ match l with [] => [] | _ => [Ask Teardown] end) = granted m.
Proof. destruct l; [rewrite app_nil_r; reflexivity|apply granted_ask]. Qed.
Lemma next_log c rest : granted (log (next c rest)) = granted (log c).
Proof. destruct (next_spec c rest) as [(d & i & x & r & _ & _ & _ & ->)|(_ & ->)]; cbn [to_ say log]; apply granted_ask. Qed.
Lemma next_phase c d rest : numbered (streams c) = d ++ rest -> incl (granted (log c)) (map fst d) ->
  match ph (next c rest) with
  | PSetup i x r => exists d', numbered (streams (next c rest)) = d' ++ (i, x) :: r /\ incl (granted (log (next c rest))) (map fst d') /\ starts x = true
  | PPlay => True | _ => False end.
Proof.
  intros N G. rewrite next_log. destruct (next_fields c rest) as (E & _). rewrite E. destruct (next_spec c rest) as [(d2 & i & x & r & -> & _ & S & ->)|(_ & ->)]; cbn [to_ say ph]; [|exact I].
  exists (d ++ d2). rewrite N, app_assoc. split; [reflexivity|]. split; [|exact S]. intros j J. rewrite map_app. apply in_or_app. left. apply G. exact J.
Qed.
Lemma shutdown_RI s sid c c1 c' : RI s -> session s sid c -> streams c1 = streams c -> sinks c1 = sinks c -> orphans c1 = orphans c -> dead c1 = dead c -> stats c1 = stats c ->
  granted (log c1) = granted (log c) -> ph c <> PGone -> shutdown c1 = Some c' -> RI (mkRx (reg s) (mset sid c' (convs s))).
Proof.
  intros R F E1 E2 E3 E4 E5 E6 PG H. rewrite (shutdown_some _ _ H). destruct (ri_conv s R sid c F) as (C1 & C2 & C3 & C4 & C5 & C6).
  eapply RI_set; [exact R|exact F| |discriminate|].
  - unfold CI. cbn [ph streams log sinks orphans dead stats]. rewrite granted_end, E1, E3, E4, E5, E6. split; [exact C1|]. split; [exact C2|]. split; [intros ? []|].
    split; [intros _; exact (C4 PG)|]. split; [intros _; exact (C5 PG)|exact I].
  - intros j x J X. cbn [streams log]. rewrite granted_end, E1, E6. auto.
Qed.
(* Streams are told once. *)
Lemma step_streams s x s' sid c : TIall s -> step s x = Fine s' -> session s sid c -> exists c', session s' sid c' /\ (streams c' = streams c \/ streams c = []).
Proof.
  intros T E F. destruct x as [k e]. destruct (Z.eq_dec k sid) as [->|N].
  - unfold step in E. pose proof F as F0. unfold session in F. rewrite F in E. pose proof (T sid c F0) as TC.
    assert (U : forall o, update sid o s = Fine s' -> (forall q, o = Some q -> streams q = streams c \/ streams c = []) -> exists c', session s' sid c' /\ (streams c' = streams c \/ streams c = [])).
    { intros [q|] Q1 Q2; [|discriminate]. cbn [update] in Q1. injection Q1 as <-. exists q. split; [apply session_same|apply Q2; reflexivity]. }
    assert (SAME : Fine s = Fine s' -> exists c', session s' sid c' /\ (streams c' = streams c \/ streams c = [])) by (intros Q; injection Q as <-; exists c; auto).
    destruct e as [b|d|ok|ok| | |i|]; [exact (SAME E)| | | | | | |].
    + destruct (ph c) eqn:P; try exact (SAME E). unfold TI in TC. rewrite P in TC. destruct TC as (S & _). eapply U; [exact E|]. intros; auto.
    + destruct (ph c) eqn:P; try exact (SAME E). unfold setUp in E. destruct ok; apply fine_inj in E; subst s';
        (eexists; split; [apply session_same|left; exact (proj1 (next_fields _ _))]).
    + destruct (ph c) eqn:P; try (destruct ok; exact (SAME E)). destruct ok.
      * destruct (delay (dur c)); [|discriminate]. eapply U; [exact E|]. intros q Q. injection Q as <-. left. reflexivity.
      * eapply U; [exact E|]. intros q Q. rewrite (shutdown_some _ _ Q). left. reflexivity.
    + destruct (ph c) as [| | |[o|]| |] eqn:P; try exact (SAME E). eapply U; [exact E|]. intros q Q. rewrite (shutdown_some _ _ Q). left. reflexivity.
    + destruct (alarm c); [|exact (SAME E)]. destruct (ph c); try discriminate; (eapply U; [exact E|]; intros q Q; injection Q as <-; left; reflexivity).
    + destruct (isIn i (sinks c)); [|exact (SAME E)]. destruct (closable c i); [|discriminate]. eapply U; [exact E|]. intros q Q. injection Q as <-. left. reflexivity.
    + unfold removeSession in E. pose proof (fun s1 R => removeAll_alike sid (streams c) s s1 R) as RA.
      destruct (ph c); try discriminate; try exact (SAME E);
      (destruct (removeAll sid (streams c) s) as [s1|]; [|discriminate]; specialize (RA s1 eq_refl sid); rewrite F in RA; destruct (mfind sid (convs s1)) as [c1|]; [|contradiction];
       injection E as <-; eexists; split; [apply session_same|left; apply RA]).
  - assert (G : forall q r, session (mkRx r (mset k q (convs s))) sid c) by (intros; apply session_other; [congruence|exact F]).
    assert (U : forall o, update k o s = Fine s' -> session s' sid c) by (intros [q|] Q; [injection Q as <-; apply G|discriminate]).
    unfold step in E. destruct (mfind k (convs s)) as [ck|] eqn:FK.
    2:{ destruct e; injection E as <-; exists c; auto. }
    assert (D : session s' sid c \/ exists s1, removeAll k (streams ck) s = Some s1 /\ exists q, session s1 k q /\ s' = mkRx (reg s1) (mset k (mkConv PGone (streams q) (dur q) (log q ++ [Ask Teardown]) [] (orphans q) [] (stats q) (keep q) false) (convs s1))).
    { destruct e as [b|d|ok|ok| | |i|].
      - injection E as <-. auto.
      - destruct (ph ck); try (injection E as <-; auto). apply U in E. auto.
      - destruct (ph ck); try (injection E as <-; auto). destruct (setUp _ _ _ _ _ _ _) as [q r]. injection E as <-. left. apply G.
      - destruct (ph ck); try (destruct ok; injection E as <-; auto). destruct ok; [|apply U in E; auto]. destruct (delay (dur ck)); [|discriminate]. apply U in E. auto.
      - destruct (ph ck) as [| | |[o|]| |]; try (injection E as <-; auto). apply U in E. auto.
      - destruct (alarm ck); [|injection E as <-; auto]. destruct (ph ck); try discriminate; apply U in E; auto.
      - destruct (isIn i (sinks ck)); [|injection E as <-; auto]. destruct (closable ck i); [|discriminate]. apply U in E. auto.
      - unfold removeSession in E. pose proof (fun s1 R => removeAll_alike k (streams ck) s s1 R) as RA.
        destruct (ph ck); try discriminate; try (injection E as <-; auto);
        (destruct (removeAll k (streams ck) s) as [s1|] eqn:RM; [|discriminate]; specialize (RA s1 eq_refl k); rewrite FK in RA; destruct (mfind k (convs s1)) as [c1|] eqn:F1; [|contradiction];
         injection E as <-; right; exists s1; split; [reflexivity|]; exists c1; split; [exact F1|reflexivity]). }
    destruct D as [D|(s1 & RM & q & F1 & ->)]; [exists c; auto|]. pose proof (removeAll_alike _ _ _ _ RM sid) as A. unfold session in F. rewrite F in A.
    destruct (mfind sid (convs s1)) as [c1|] eqn:F2; [|contradiction]. exists c1. split; [apply session_other; [congruence|exact F2]|]. left. apply A.
Qed.
Lemma apart_before s x s' : TIall s -> step s x = Fine s' -> apart s' -> apart s.
Proof.
  intros T E A s1 c1 i1 x1 s2 c2 i2 x2 F1 F2 N1 N2 S P. destruct (step_streams s x s' s1 c1 T E F1) as (d1 & G1 & H1). destruct (step_streams s x s' s2 c2 T E F2) as (d2 & G2 & H2).
  destruct H1 as [H1|H1]; [|rewrite H1 in N1; destruct i1; discriminate]. destruct H2 as [H2|H2]; [|rewrite H2 in N2; destruct i2; discriminate].
  eapply (A s1 d1 i1 x1 s2 d2 i2 x2); auto; congruence.
Qed.

Lemma setup_new s sid c i x rest : RI s -> apart s -> session s sid c -> ph c = PSetup i x rest -> nth_error (streams c) i = Some x /\ starts x = true /\ ~ In i (granted (log c)) /\ mfind (sport x) (reg s) = None /\ ~ In (sport x) (stats c).
Proof.
  intros R A F P. destruct (ri_conv s R sid c F) as (C1 & C2 & C3 & C4 & C5 & C6). rewrite P in *. destruct C6 as (d & N & G & S).
  assert (NX : nth_error (streams c) i = Some x). { apply numbered_nth. rewrite N. apply in_or_app. right. left. reflexivity. }
  assert (NG : ~ In i (granted (log c))).
  { intros C. apply G in C. pose proof (numbered_nodup (streams c)) as ND. rewrite N, map_app in ND. cbn [map fst] in ND. apply NoDup_remove_2 in ND. apply ND. apply in_or_app. left. exact C. }
  split; [exact NX|]. split; [exact S|]. split; [exact NG|]. split.
  - destruct (mfind (sport x) (reg s)) as [[o j]|] eqn:E; [|reflexivity]. exfalso. destruct (ri_own s R _ _ _ E) as (co & y & Y1 & Y2 & Y3 & Y4 & Y5 & _).
    destruct (A o co j y sid c i x Y1 F Y2 NX Y3 Y4) as (-> & ->). unfold session in Y1, F. rewrite F in Y1. injection Y1 as <-. contradiction.
  - intros C. destruct (C5 ltac:(discriminate) _ C) as (j & y & J1 & J2 & J3). assert (PX : sport x = sport y) by congruence. destruct (A sid c i x sid c j y F F NX J2 S PX) as (_ & ->). contradiction.
Qed.
Lemma step_RI s x s' : TIall s -> RI s -> step s x = Fine s' -> apart s' -> RI s'.
Proof.
  intros T R E A'. pose proof (apart_before _ _ _ T E A') as A. destruct x as [sid e]. unfold step in E. destruct (mfind sid (convs s)) as [c|] eqn:F.
  2:{ destruct e; try (injection E as <-; exact R). cbn [update] in E. injection E as <-. apply RI_new; assumption. }
  pose proof (T sid c F) as TC. pose proof (ri_conv s R sid c F) as CC. destruct CC as (C1 & C2 & C3 & C4 & C5 & C6).
  destruct e as [k|d|ok|ok| | |i|].
  - injection E as <-. exact R.
  - destruct (ph c) as [|i x rest| |o| |] eqn:P; try (injection E as <-; exact R). unfold TI in TC. rewrite P in TC. destruct TC as (S & L & AL).
    assert (GN : forall m, granted (log c ++ [Answer m]) = granted (log c)) by (intros m; rewrite L; destruct m; reflexivity).
    assert (SN : sinks c = []) by (destruct (sinks c) as [|z q]; [reflexivity|exfalso; specialize (C3 z (or_introl eq_refl)); rewrite C6 in C3; destruct C3]).
    unfold described in E. destruct d as [[[l abs] t]|].
    + assert (ST : stats c = []). { destruct (stats c) as [|z q]; [reflexivity|]. destruct (C5 ltac:(discriminate) z (or_introl eq_refl)) as (i & _ & X & _). rewrite C6 in X. destruct X. }
      destruct l as [|y l].
      * match type of E with update _ (shutdown ?q) _ = _ => set (c1 := q) in *; destruct (shutdown c1) as [c'|] eqn:SD; [|discriminate] end.
        injection E as <-. eapply shutdown_RI with (c1 := c1); try exact SD; try exact R; try exact F; try reflexivity; unfold c1; cbn [streams log]; [symmetry; exact S|apply GN|rewrite P; discriminate].
      * unfold update in E. apply fine_inj in E. subst s'.
        match goal with |- RI (mkRx _ (mset _ (next ?q ?r) _)) => set (c1 := q); set (rest := r) end.
        destruct (next_fields c1 rest) as (N1 & N2 & N3 & N4 & N5 & N6 & N7 & N8 & N9).
        assert (G1 : granted (log (next c1 rest)) = []) by (rewrite next_log; unfold c1; cbn [log]; rewrite GN; exact C6).
        eapply RI_set; [exact R|exact F| |exact N9|].
        -- unfold CI. rewrite N1, N2, N3, N4, N5, G1. change (orphans c1) with (orphans c). change (dead c1) with (dead c). change (sinks c1) with (sinks c). change (stats c1) with (stats c). rewrite C1, C2, SN, ST.
           split; [reflexivity|]. split; [reflexivity|]. split; [intros ? []|]. split; [intros _ ? []|]. split; [intros _ ? []|].
           pose proof (next_phase c1 [] rest eq_refl) as NP. rewrite next_log in G1. rewrite next_log, G1, N1 in NP. specialize (NP ltac:(intros ? [])).
           destruct (ph (next c1 rest)); try contradiction; auto.
        -- intros j x J. rewrite C6 in J. destruct J.
    + destruct (shutdown (say [Answer false] c)) as [c'|] eqn:SD; [|discriminate]. injection E as <-.
      eapply shutdown_RI with (c1 := say [Answer false] c); try exact SD; try exact R; try exact F; try reflexivity; [apply GN|rewrite P; discriminate].
  - destruct (ph c) as [|i x rest| |o| |] eqn:P; try (injection E as <-; exact R). destruct (setup_new s sid c i x rest R A F P) as (NX & SX & NG & NR & NS).
    unfold TI in TC. rewrite P in TC. destruct TC as (d0 & a & N0 & S0 & L & EL & AL). destruct C6 as (d & N & G & S). unfold setUp in E. destruct ok.
    + assert (GY : granted (log c ++ [Answer true]) = granted (log c) ++ [i]). { rewrite EL. rewrite granted_yes, granted_ask. reflexivity. }
      assert (CT : negb (existsb (Z.eqb (sport x)) (stats c)) && negb (mmem (sport x) (reg s)) = true).
      { unfold mmem. rewrite NR. destruct (existsb (Z.eqb (sport x)) (stats c)) eqn:X; [|reflexivity]. apply existsb_exists in X. destruct X as (p & X1 & X2). apply Z.eqb_eq in X2. subst p. contradiction. }
      rewrite CT in E. unfold mmem in E. rewrite NR in E. apply fine_inj in E. subst s'.
      match goal with |- RI (mkRx _ (mset _ (next ?q _) _)) => set (c1 := q) end.
      destruct (next_fields c1 rest) as (N1 & N2 & N3 & N4 & N5 & N6 & N7 & N8 & N9).
      assert (G1 : granted (log (next c1 rest)) = granted (log c) ++ [i]) by (rewrite next_log; exact GY).
      assert (OLD : forall p v, mfind p (reg s) = Some v -> mfind p (mset (sport x) (sid, i) (reg s)) = Some v).
      { intros p v V. rewrite mfind_mset_neq; [exact V|]. intros ->. congruence. }
      constructor; cbn [reg].
      * apply msorted_mset. apply ri_sorted. exact R.
      * intros p o j M. rewrite mfind_mset in M. destruct (Z.eqb_spec p (sport x)) as [->|NP].
        -- injection M as <- <-. exists (next c1 rest), x. split; [apply session_same|]. rewrite N1, G1. split; [exact NX|]. split; [exact SX|]. split; [reflexivity|]. split; [apply in_or_app; right; left; reflexivity|exact N9].
        -- destruct (ri_own s R p o j M) as (co & y & Y1 & Y2 & Y3 & Y4 & Y5 & Y6). destruct (Z.eq_dec o sid) as [->|NO].
           ++ unfold session in Y1. rewrite F in Y1. injection Y1 as <-. exists (next c1 rest), y. split; [apply session_same|]. rewrite N1, G1. split; [exact Y2|]. split; [exact Y3|]. split; [exact Y4|]. split; [apply in_or_app; left; exact Y5|exact N9].
           ++ exists co, y. split; [apply session_other; assumption|]. auto.
      * intros k q H. apply session_set in H. destruct H as [[-> ->]|[NK H]].
        -- unfold CI. rewrite N1, N2, N3, N4, N5, G1. change (orphans c1) with (orphans c). change (dead c1) with (dead c). change (sinks c1) with (i :: sinks c). change (stats c1) with (sport x :: stats c). change (streams c1) with (streams c). cbn [reg].
           split; [exact C1|]. split; [exact C2|]. split; [intros j [<-|J]; apply in_or_app; [right; left; reflexivity|left; apply C3; exact J]|].
           split; [|split].
           ++ intros _ j J. apply in_app_or in J. destruct J as [J|[<-|[]]].
              ** destruct (C4 ltac:(discriminate) j J) as (y & Y1 & Y2 & Y3 & Y4). exists y. split; [exact Y1|]. split; [exact Y2|]. split; [apply OLD; exact Y3|right; exact Y4].
              ** exists x. split; [exact NX|]. split; [exact SX|]. split; [apply mfind_mset_eq|left; reflexivity].
           ++ intros _ p [<-|J]; [exists i, x; split; [apply in_or_app; right; left; reflexivity|auto]|]. destruct (C5 ltac:(discriminate) p J) as (j & y & Y1 & Y2 & Y3). exists j, y. split; [apply in_or_app; left; exact Y1|auto].
           ++ pose proof (next_phase c1 (d ++ [(i, x)]) rest) as NP. change (streams c1) with (streams c) in NP. rewrite <- app_assoc in NP. specialize (NP N).
              assert (GI : incl (granted (log c1)) (map fst (d ++ [(i, x)]))).
              { unfold c1. cbn [say log]. rewrite GY, map_app. cbn [map fst]. intros j J. apply in_app_or in J. apply in_or_app. destruct J as [J|J]; [left; apply G; exact J|right; exact J]. }
              specialize (NP GI). rewrite G1, N1 in NP. change (streams c1) with (streams c) in NP. destruct (ph (next c1 rest)); try contradiction; auto.
        -- destruct (ri_conv s R k q H) as (D1 & D2 & D3 & D4 & D5 & D6). unfold CI. cbn [reg]. split; [exact D1|]. split; [exact D2|]. split; [exact D3|]. split; [|split; [exact D5|exact D6]].
           intros PG j J. destruct (D4 PG j J) as (y & Y1 & Y2 & Y3 & Y4). exists y. split; [exact Y1|]. split; [exact Y2|]. split; [apply OLD; exact Y3|exact Y4].
    + apply fine_inj in E. subst s'. set (c1 := say [Answer false] c). destruct (next_fields c1 rest) as (N1 & N2 & N3 & N4 & N5 & N6 & N7 & N8 & N9).
      assert (G1 : granted (log (next c1 rest)) = granted (log c)) by (rewrite next_log; unfold c1; cbn [say log]; apply granted_no).
      eapply RI_set; [exact R|exact F| |exact N9|].
      * unfold CI. rewrite N1, N2, N3, N4, N5, G1. change (orphans c1) with (orphans c). change (dead c1) with (dead c). change (sinks c1) with (sinks c). change (stats c1) with (stats c). change (streams c1) with (streams c). split; [exact C1|]. split; [exact C2|]. split; [exact C3|].
        split; [intros _; exact (C4 ltac:(discriminate))|]. split; [intros _; exact (C5 ltac:(discriminate))|].
        pose proof (next_phase c1 (d ++ [(i, x)]) rest) as NP. change (streams c1) with (streams c) in NP. rewrite <- app_assoc in NP. specialize (NP N).
        assert (GI : incl (granted (log c1)) (map fst (d ++ [(i, x)]))). { unfold c1. cbn [say log]. rewrite granted_no, map_app. intros j J. apply in_or_app. left. apply G. exact J. }
        specialize (NP GI). rewrite G1, N1 in NP. change (streams c1) with (streams c) in NP. destruct (ph (next c1 rest)); try contradiction; auto.
      * intros j y J Y. rewrite N1, G1. auto.
  - destruct (ph c) as [|i x rest| |o| |] eqn:P; try (destruct ok; injection E as <-; exact R). unfold TI in TC. rewrite P in TC. destruct TC as (a & L & EL & AL).
    assert (GP : forall b, granted (log c ++ [Answer b]) = granted (log c)) by (intros b; rewrite EL, granted_play, granted_ask; reflexivity). destruct ok.
    + destruct (delay (dur c)) as [o|]; [|discriminate]. cbn [update] in E. injection E as <-. eapply RI_set; [exact R|exact F| |discriminate|].
      * unfold CI. cbn [setAlarm to_ say ph streams log sinks orphans dead stats]. rewrite GP. split; [exact C1|]. split; [exact C2|]. split; [exact C3|]. split; [intros _; exact (C4 ltac:(discriminate))|]. split; [intros _; exact (C5 ltac:(discriminate))|exact I].
      * intros j y J Y. cbn [setAlarm to_ say streams log]. rewrite GP. auto.
    + destruct (shutdown (say [Answer false] c)) as [c'|] eqn:SD; [|discriminate]. injection E as <-.
      eapply shutdown_RI with (c1 := say [Answer false] c); try exact SD; try exact R; try exact F; try reflexivity; [apply GP|rewrite P; discriminate].
  - destruct (ph c) as [|i x rest| |[o|]| |] eqn:P; try (injection E as <-; exact R). destruct (shutdown c) as [c'|] eqn:SD; [|discriminate]. injection E as <-.
    eapply shutdown_RI with (c1 := c); try exact SD; try exact R; try exact F; try reflexivity. rewrite P; discriminate.
  - destruct (alarm c) eqn:AL; [|injection E as <-; exact R]. unfold TI in TC. destruct (ph c) as [|i x rest| |o| |] eqn:P; try discriminate.
    + destruct TC as (_ & _ & X). congruence.
    + destruct TC as (d & a & _ & _ & _ & _ & X). congruence.
    + destruct TC as (a & _ & _ & X). congruence.
    + cbn [update] in E. injection E as <-. eapply RI_set; [exact R|exact F| |cbn [say ph]; rewrite P; discriminate|].
      * unfold CI. cbn [say ph streams log sinks orphans dead stats]. rewrite granted_ask, P. split; [exact C1|]. split; [exact C2|]. split; [exact C3|]. split; [exact C4|]. split; [exact C5|exact I].
      * intros j y J Y. cbn [say streams log]. rewrite granted_ask. auto.
    + destruct TC as (_ & X). congruence.
  - destruct (isIn i (sinks c)) eqn:II; [|injection E as <-; exact R]. destruct (closable c i); [|discriminate]. cbn [update] in E. injection E as <-.
    assert (PG : ph c <> PGone). { intros P. rewrite P in C6. rewrite C6 in II. discriminate. }
    eapply RI_set; [exact R|exact F| |exact PG|].
    + unfold CI. cbn [ph streams log sinks orphans dead stats]. split; [exact C1|]. split; [exact C2|]. split; [intros j J; apply filter_In in J; apply C3; apply J|]. split; [exact C4|]. split; [exact C5|].
      destruct (ph c); auto. congruence.
    + intros j y J Y. cbn [streams log]. auto.
  - assert (RM : forall s1 c1, ph c <> PGone -> removeAll sid (streams c) s = Some s1 -> session s1 sid c1 ->
        RI (mkRx (reg s1) (mset sid (mkConv PGone (streams c1) (dur c1) (log c1 ++ [Ask Teardown]) [] (orphans c1) [] (stats c1) (keep c1) false) (convs s1)))).
    { intros s1 c1 PG RA F1. destruct (removeAll_reg sid (streams c) s s1 (ri_sorted s R) RA) as (M1 & RG).
      pose proof (removeAll_alike sid (streams c) s s1 RA) as AL.
      assert (OO : forall x o j, In x (streams c) -> mfind (sport x) (reg s) = Some (o, j) -> o = sid).
      { intros x o j I' F'. destruct (ri_own s R _ _ _ F') as (co & y & Y1 & Y2 & Y3 & Y4 & _). apply In_nth_error in I'. destruct I' as (n & I'). apply (A o co j y sid c n x Y1 F Y2 I' Y3 Y4). }
      pose proof (removeAll_others sid (streams c) s s1 (ri_sorted s R) RA OO) as OT.
      pose proof (AL sid) as AS. rewrite F in AS. unfold session in F1. rewrite F1 in AS. destruct AS as (B1 & B2 & B3 & B4 & B5 & B6 & B7 & B8).
      assert (KEEP : forall k q j y, k <> sid -> session s k q -> nth_error (streams q) j = Some y -> starts y = true -> existsb (fun z => sport z =? sport y) (streams c) = false).
      { intros k q j y NK H Y1 Y2. destruct (existsb _ _) eqn:X; [|reflexivity]. apply existsb_exists in X. destruct X as (z & Z1 & Z2). apply Z.eqb_eq in Z2. apply In_nth_error in Z1. destruct Z1 as (n & Z1).
        exfalso. apply NK. apply (A k q j y sid c n z H F Y1 Z1 Y2). symmetry. exact Z2. }
      constructor; cbn [reg].
      - exact M1.
      - intros p o j M. rewrite RG in M. destruct (existsb (fun x => sport x =? p) (streams c)) eqn:EX; [discriminate|].
        destruct (ri_own s R p o j M) as (co & y & Y1 & Y2 & Y3 & Y4 & Y5 & Y6). exists co, y. split; [|auto].
        assert (NO : o <> sid).
        { intros ->. unfold session in Y1. rewrite F in Y1. injection Y1 as <-. assert (existsb (fun x => sport x =? p) (streams c) = true); [|congruence]. apply existsb_exists. exists y. split; [eapply nth_error_In; exact Y2|apply Z.eqb_eq; exact Y4]. }
        apply session_other; [exact NO|]. unfold session. rewrite OT by exact NO. exact Y1.
      - intros k q H. apply session_set in H. destruct H as [[-> ->]|[NK H]].
        + unfold CI. cbn [ph streams log sinks orphans dead stats]. rewrite B6. split; [exact C1|]. split; [reflexivity|]. split; [intros ? []|]. split; [congruence|]. split; [congruence|reflexivity].
        + unfold session in H. rewrite OT in H by exact NK. destruct (ri_conv s R k q H) as (D1 & D2 & D3 & D4 & D5 & D6). unfold CI. cbn [reg]. split; [exact D1|]. split; [exact D2|]. split; [exact D3|]. split; [|split; [exact D5|exact D6]].
          intros PQ j J. destruct (D4 PQ j J) as (y & Y1 & Y2 & Y3 & Y4). exists y. split; [exact Y1|]. split; [exact Y2|]. split; [|exact Y4]. rewrite RG, (KEEP k q j y NK H Y1 Y2). exact Y3. }
    unfold removeSession in E. destruct (ph c) as [|i x rest| |o| |] eqn:P; try discriminate; try (injection E as <-; exact R);
    (destruct (removeAll sid (streams c) s) as [s1|] eqn:RA; [|discriminate]; pose proof (removeAll_alike sid (streams c) s s1 RA sid) as AL; rewrite F in AL; destruct (mfind sid (convs s1)) as [c1|] eqn:F1; [|contradiction];
     injection E as <-; apply RM; [discriminate|reflexivity|exact F1]).
Qed.
Lemma reachable_RI s : reachable s -> apart s -> RI s.
Proof.
  intros R. enough (G : TIall s /\ (apart s -> RI s)) by apply G. revert s R. apply reachable_ind'.
  - split; [intros k c F; discriminate|]. intros _. constructor; [exact I|discriminate|discriminate].
  - intros s x s' (T & H) E. split; [eapply step_TI; eauto|]. intros A'. eapply step_RI; eauto. apply H. eapply apart_before; eauto.
Qed.
