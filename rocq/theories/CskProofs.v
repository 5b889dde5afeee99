(** Proofs for C97 and C98. *)
From Coq Require Import Ascii String.
From Verif Require Import Base ZMap JsonModel JsonSpec JsonProofs JsonProps NetModel PipeModel CtlModel CtlSpec CtlProofs CskModel CskSpec.
Local Open Scope list_scope.
Notation length := List.length.

Lemma good_serve f m ps p es : good (Obj m) -> (N.of_nat (length (write f (Obj m))) <= 16383)%N -> ~ In "000"%char (write f (Obj m)) ->
  ps = newParser ->
  match serve ps p es (write f (Obj m)) with
  | Round ps' _ (Answer _) _ => ps' = newParser
  | Round _ _ NoAnswer _ => False
  | UndefinedParse => False
  | _ => True
  end.
Proof.
  intros G L Z ->. unfold serve. rewrite inBuffer_id by assumption. pose proof (roundtrip f _ G) as RT. cbn [blank] in RT. rewrite RT.
  destruct (processRequest p es (Obj m)); auto.
Qed.

Lemma loop_good h : (0 < room h)%nat -> forall cs s o gs, Forall wellBehaved cs -> par s = newParser -> held s = 0%nat ->
  loop h cs s = (o, gs) ->
  (forall g, In g gs -> exists t, g = Answered t) /\
  (forall s', o = Some s' -> length gs = length cs /\ held s' = 0%nat /\ par s' = newParser).
Proof.
  intros R. induction cs as [|c r IH]; intros s o gs F P H E; cbn [loop] in E.
  - injection E as <- <-. split; [intros g []|]. intros s' E. injection E as <-. auto.
  - inversion F as [|? ? W F']; subst. destruct W as (f & m & G & D & L & Z & S).
    assert (T : (exists s1 t, turnOf h c s = Goes s1 (Answered t) /\ par s1 = newParser /\ held s1 = 0%nat) \/ turnOf h c s = Ended).
    { unfold turnOf. rewrite (proj2 (Nat.leb_gt _ _)) by lia. rewrite D. unfold request, answer. rewrite S.
      pose proof (good_serve f m (par s) (pip s) (world c) G L Z P) as Q.
      destruct (serve (par s) (pip s) (world c) (write f (Obj m))) as [ps p [t|] pu | | |]; auto; try contradiction.
      left. eexists _, _. split; [reflexivity|]. cbn. auto. }
    destruct T as [(s1 & t & T & P1 & H1) | T]; rewrite T in E.
    + destruct (loop h r s1) as [o1 gs1] eqn:E1. injection E as <- <-.
      destruct (IH _ _ _ F' P1 H1 E1) as [A B]. split.
      * intros g [<- | I]; eauto.
      * intros s' E'. destruct (B s' E') as (X & Y & V). cbn. auto.
    + injection E as <- <-. split; [intros g []|]. discriminate.
Qed.

Lemma turn_session h c s s1 g log : stays c = true -> session (par s) (pip s) log -> turnOf h c s = Goes s1 g ->
  session (par s1) (pip s1) (log ++ exchange (c, g)).
Proof.
  intros S0 SE. unfold turnOf. destruct (Nat.leb (room h) (held s)).
  { intros E. injection E as <- <-. unfold exchange. cbn [fst snd]. destruct (does c); rewrite app_nil_r; exact SE. }
  assert (Q : forall m, request h c s m = Goes s1 g ->
     exists r, session (par s1) (pip s1) (log ++ [(m, r)]) /\ match g with Answered t => r = Answer t | Unanswered => r = NoAnswer | _ => False end).
  { intros m. unfold request, answer. rewrite S0. destruct (serve (par s) (pip s) (world c) m) as [ps p [t|] pu | | |] eqn:E; try discriminate; intros H; injection H as <- <-;
    eexists; (split; [cbn; eapply se_message; eassumption | reflexivity]). }
  unfold exchange. cbn [fst snd]. destruct (does c) as [m l | | |] eqn:D; intros E; try discriminate.
  - destruct (Q _ E) as (r & A & B). destruct g; subst; try contradiction; exact A.
  - destruct (Q _ E) as (r & A & B). destruct g; subst; try contradiction; exact A.
  - injection E as <- <-. cbn. rewrite app_nil_r. exact SE.
Qed.
Lemma loop_session h : forall cs s o gs log, Forall (fun c => stays c = true) cs -> session (par s) (pip s) log -> loop h cs s = (o, gs) ->
  forall s', o = Some s' -> session (par s') (pip s') (log ++ flat_map exchange (combine cs gs)).
Proof.
  induction cs as [|c r IH]; intros s o gs log F S E s' ->; cbn [loop] in E.
  - injection E as <- <-. cbn. rewrite app_nil_r. exact S.
  - inversion F; subst. destruct (turnOf h c s) as [s1 g | |] eqn:T; try discriminate.
    destruct (loop h r s1) as [o1 gs1] eqn:E1. injection E as -> <-.
    pose proof (turn_session _ _ _ _ _ _ H1 S T) as S1. cbn [combine flat_map]. rewrite app_assoc. eapply IH; eauto.
Qed.

Lemma turn_held h c s s1 g : turnOf h c s = Goes s1 g ->
  held s1 = (held s + leftOpen [g])%nat /\ (g = NotAccepted <-> (room h <= held s)%nat).
Proof.
  unfold turnOf. destruct (Nat.leb_spec (room h) (held s)) as [L | L].
  - intros E. injection E as <- <-. cbn. split; [lia | tauto].
  - assert (Q : forall m, request h c s m = Goes s1 g -> held s1 = (held s + leftOpen [g])%nat /\ (g = NotAccepted <-> (room h <= held s)%nat)).
    { intros m. unfold request, answer. destruct (serve _ _ _ m) as [ps p [t|] pu | | |]; try discriminate.
      - destruct (stays c); [|destruct (sigpipe h)]; try discriminate; intros E; injection E as <- <-; cbn; (split; [lia | split; [discriminate | lia]]).
      - intros E; injection E as <- <-; cbn; (split; [lia | split; [discriminate | lia]]). }
    destruct (does c); intros E; try discriminate; eauto.
    injection E as <- <-; cbn; (split; [lia | split; [discriminate | lia]]).
Qed.
Lemma loop_accepted h : forall cs s o gs i g, loop h cs s = (o, gs) -> nth_error gs i = Some g ->
  (g = NotAccepted <-> (room h <= held s + leftOpen (firstn i gs))%nat).
Proof.
  induction cs as [|c r IH]; intros s o gs i g E N; cbn [loop] in E.
  - injection E as <- <-. destruct i; discriminate.
  - destruct (turnOf h c s) as [s1 g1 | |] eqn:T; [|injection E as <- <-; destruct i; discriminate..].
    destruct (loop h r s1) as [o1 gs1] eqn:E1. injection E as <- <-. destruct (turn_held _ _ _ _ _ T) as [A B].
    destruct i as [|i]; cbn [nth_error firstn] in *.
    + injection N as <-. cbn. rewrite Nat.add_0_r. exact B.
    + rewrite (IH _ _ _ _ _ E1 N), A. unfold leftOpen. cbn [filter]. destruct g1; cbn [length]; rewrite ?Nat.add_0_r, ?Nat.add_1_r; try tauto; lia.
Qed.

(** *** The two objects *)
Definition below (w : world2) : Prop :=
  (forall o, In o (alive w) -> (o < nxt w)%nat) /\ (forall o, pptr w = Some o -> In o (alive w)) /\
  (forall o, cptr w = Some o -> (o < nxt w)%nat /\ In o (alive w) /\ pptr w <> Some o /\ exists p, In (o, p) (cpipe w)) /\
  (forall c p, In (c, p) (cpipe w) -> cptr w = Some c).

Lemma below0 : below world0.
Proof. repeat split; cbn; try contradiction; try discriminate. Qed.
Lemma below_getP w o w1 : below w -> getP w = (o, w1) ->
  below w1 /\ pptr w1 = Some o /\ (nxt w <= nxt w1)%nat /\ (pptr w = Some o \/ pptr w = None /\ o = nxt w) /\ cptr w1 = cptr w /\ cpipe w1 = cpipe w.
Proof.
  intros (A & B & C & D) E. unfold getP in E. destruct (pptr w) as [q|] eqn:P; injection E as <- <-.
  - split; [unfold below; rewrite P; auto|]. auto.
  - cbn. split; [|repeat split; auto; lia]. unfold below. cbn. split; [|split; [|split]].
    + intros o [<- | I]; [lia | specialize (A o I); lia].
    + intros o E. injection E as <-. auto.
    + intros o E. destruct (C o E) as (X & Y & Z & V). repeat split; [lia | auto | intros E'; injection E' as E'; lia | auto].
    + auto.
Qed.
Lemma below_getC w o w1 : below w -> getC w = (o, w1) ->
  below w1 /\ cptr w1 = Some o /\ (nxt w <= nxt w1)%nat /\ (pptr w1 = pptr w \/ pptr w = None /\ pptr w1 = Some (nxt w)).
Proof.
  intros I E. unfold getC in E. destruct (cptr w) as [q|] eqn:P.
  - injection E as <- <-. auto.
  - destruct (getP w) as [p w2] eqn:G. destruct (below_getP _ _ _ I G) as ((A & B & C & D) & Q & N & O & X & Y).
    injection E as <- <-. cbn. split; [|repeat split; auto; try lia].
    + unfold below. cbn. split; [|split; [|split]].
      * intros o [<- | H]; [lia | specialize (A o H); lia].
      * intros o E. right. apply B. exact E.
      * intros o E. injection E as <-. repeat split; [lia | auto | | eauto].
        intros E. specialize (A _ (B _ E)). lia.
      * intros c q [E | H]; [injection E as <- <-; auto|]. specialize (D _ _ H). rewrite X, P in D. discriminate.
    + destruct O as [O | [O1 O2]]; [left; congruence | right; subst; auto].
Qed.
Lemma below_asked a w g w1 : a <> DestroyC -> below w -> asked a w = (g, w1) ->
  below w1 /\ (nxt w <= nxt w1)%nat /\ g <> Freed /\
  (pptr w1 = pptr w \/ pptr w = None /\ pptr w1 = Some (nxt w) \/ a = DestroyP /\ pptr w1 = None) /\
  (forall o, g = Object o -> a = GetP -> pptr w1 = Some o) /\ (forall o, g = Object o -> a = GetC -> cptr w1 = Some o) /\
  (forall o, cptr w = Some o -> cptr w1 = Some o).
Proof.
  intros ND I E. destruct a; cbn [asked] in E; try contradiction.
  - destruct (getP w) as [o w2] eqn:G. destruct (below_getP _ _ _ I G) as (A & Q & N & O & X & Y). injection E as <- <-.
    split; [exact A|]. split; [exact N|]. split; [discriminate|]. split.
    { destruct O as [O | [O1 O2]]; [left; congruence | right; left; subst; auto]. }
    split; [intros o' E _; injection E as <-; exact Q|]. split; [intros o' _ E; discriminate|]. intros. congruence.
  - destruct (pptr w) as [o|] eqn:P.
    + unfold freed in E. destruct I as (A & B & C & D). assert (M : existsb (Nat.eqb o) (alive w) = true).
      { apply existsb_exists. exists o. split; [apply B; exact P | apply Nat.eqb_refl]. }
      rewrite M in E. injection E as <- <-. cbn. split.
      { unfold below. cbn. split; [|split; [discriminate|split; [|exact D]]].
        - intros x H. apply filter_In in H. apply A. tauto.
        - intros x E. destruct (C x E) as (X & Y & Z & V). repeat split; auto; [|discriminate].
          apply filter_In. split; [exact Y|]. apply Bool.negb_true_iff, Nat.eqb_neq. intros ->. apply Z. exact P. }
      repeat split; auto; discriminate.
    + injection E as <- <-. rewrite P. split; [exact I|]. split; [lia|]. split; [discriminate|]. split; [auto|].
      split; [intros; discriminate|]. split; [intros; discriminate | auto].
  - destruct (getC w) as [o w2] eqn:G. destruct (below_getC _ _ _ I G) as (A & Q & N & O). injection E as <- <-.
    split; [exact A|]. split; [exact N|]. split; [discriminate|]. split; [tauto|].
    split; [intros o' _ E; discriminate|]. split; [intros o' E _; injection E as <-; exact Q|].
    intros x X. unfold getC in G. rewrite X in G. injection G as <- <-. exact X.
  - destruct (getC w) as [o w2] eqn:G. destruct (below_getC _ _ _ I G) as (A & Q & N & O).
    assert (K : forall x, cptr w = Some x -> cptr w2 = Some x) by (intros x X; unfold getC in G; rewrite X in G; injection G as <- <-; exact X).
    destruct A as (A1 & A2 & A3 & A4). destruct (A3 _ Q) as (X & Y & Z & p & V).
    assert (M : existsb (Nat.eqb o) (alive w2) = true) by (apply existsb_exists; exists o; split; [exact Y | apply Nat.eqb_refl]).
    rewrite M in E. destruct (find (fun x => Nat.eqb o (fst x)) (cpipe w2)) as [[c q]|] eqn:F.
    + injection E as <- <-. split; [repeat split; auto; apply A3; auto|]. split; [exact N|]. split; [discriminate|]. split; [tauto|].
      split; [intros o' _ E; discriminate|]. split; [intros o' _ E; discriminate | exact K].
    + exfalso. pose proof (find_none _ _ F _ V) as W. cbn in W. rewrite Nat.eqb_refl in W. discriminate.
Qed.

(** What the pipelines and controllers obtained later are. *)
Lemma askedAll_later l : forall w, below w -> ~ In DestroyC l ->
  ~ In Freed (fst (askedAll l w)) /\
  (forall i g, nth_error l i = Some GetP -> nth_error (fst (askedAll l w)) i = Some g ->
     exists o, g = Object o /\ ((nxt w <= o)%nat \/ pptr w = Some o /\ ~ In DestroyP (firstn i l))) /\
  (forall i g q, nth_error l i = Some GetP -> nth_error (fst (askedAll l w)) i = Some g -> pptr w = Some q -> ~ In DestroyP (firstn i l) -> g = Object q) /\
  (forall i g q, nth_error l i = Some GetC -> nth_error (fst (askedAll l w)) i = Some g -> cptr w = Some q -> g = Object q) /\
  (forall i g, nth_error l i = Some GetC -> nth_error (fst (askedAll l w)) i = Some g -> exists o, g = Object o).
Proof.
  induction l as [|a r IH]; intros w I ND; cbn [askedAll].
  - cbn. split; [tauto|]. repeat split; intros i; intros; destruct i; discriminate.
  - destruct (asked a w) as [g0 w1] eqn:E. destruct (askedAll r w1) as [gs w2] eqn:R. cbn [fst].
    assert (Na : a <> DestroyC) by (intros ->; apply ND; cbn; auto).
    destruct (below_asked _ _ _ _ Na I E) as (I1 & N & NF & PP & GP & GC & KC).
    destruct (IH w1 I1 ltac:(intros H; apply ND; cbn; auto)) as (F & A & B & C & D). rewrite R in *. cbn [fst] in *.
    split; [intros [H | H]; [apply NF; auto | apply F; exact H]|]. split; [|split; [|split]].
    + intros [|i] g X Y; cbn [nth_error firstn] in *.
      * injection X as ->. injection Y as <-. cbn [asked] in E. destruct (getP w) as [o wx] eqn:G. injection E as <- <-.
        exists o. split; [reflexivity|]. destruct (below_getP _ _ _ I G) as (_ & _ & _ & O & _). destruct O as [O | [O1 O2]]; [right; auto | left; lia].
      * destruct (A _ _ X Y) as (o & -> & O). exists o. split; [reflexivity|]. destruct O as [O | [O1 O2]]; [left; lia|].
        destruct PP as [P | [[P1 P2] | [P1 P2]]].
        -- destruct a; try (right; split; [congruence | intros [H | H]; [discriminate | auto]]).
           cbn [asked] in E. destruct (pptr w) as [q|] eqn:Q; [|congruence].
           destruct (freed q w); injection E as <- <-; [cbn in O1; discriminate | exfalso; apply NF; reflexivity].
        -- left. rewrite P2 in O1. injection O1 as <-. lia.
        -- congruence.
    + intros [|i] g q X Y Q NP; cbn [nth_error firstn] in *.
      * injection X as ->. injection Y as <-. cbn [asked] in E. unfold getP in E. rewrite Q in E. injection E as <- <-. reflexivity.
      * apply (B i g q X Y); [|intros H; apply NP; cbn; auto]. destruct PP as [P | [[P1 P2] | [P1 P2]]]; [congruence | congruence|].
        exfalso. apply NP. rewrite P1. cbn. auto.
    + intros [|i] g q X Y Q; cbn [nth_error] in *.
      * injection X as ->. injection Y as <-. cbn [asked] in E. unfold getC in E. rewrite Q in E. injection E as <- <-. reflexivity.
      * apply (C i g q X Y). apply KC. exact Q.
    + intros [|i] g X Y; cbn [nth_error] in *; eauto.
      injection X as ->. injection Y as <-. cbn [asked] in E. destruct (getC w). injection E as <- <-. eauto.
Qed.
