(** Proofs about the encoder model. *)
From Coq Require Import String.
From Verif Require Import Base ZMap EncModel EncSpec.
Local Open Scope list_scope.
Local Open Scope Z_scope.

Lemma sessionOf_snoc a x : sessionOf (a ++ [x]) = after (sessionOf a) x.
Proof. unfold sessionOf. rewrite fold_left_app. reflexivity. Qed.
Lemma honest_snoc a x : honest (a ++ [x]) -> honest a /\ fair (sessionOf a) x.
Proof.
  intros H. split; [|apply (H a x []); reflexivity].
  intros b y c E. apply (H b y (c ++ [x])). rewrite E, <- app_assoc. reflexivity.
Qed.
Lemma honest_app a b : honest (a ++ b) -> honest a.
Proof. intros H c x d E. apply (H c x (d ++ b)). rewrite E, <- app_assoc. reflexivity. Qed.

(** The invariant that ties the records to the session. *)
Record inv (e : enc) (s : session) : Prop := mkInv {
  i_sorted : msorted (qFTP e);
  i_keys : forall k v, mfind k (qFTP e) = Some v -> 0 <= k <= inPts e;
  i_pos : 0 <= inPts e;
  i_taken : forall n p, In (n, p) (taken s) -> 0 <= n < inPts e;
  i_nodup : NoDup (map fst (taken s));
  i_rec : forall n p, In (n, p) (taken s) -> (forall l, lastDts s = Some l -> l < n) -> mfind n (qFTP e) = Some (paramsOf p);
  i_last : forall l, lastDts s = Some l -> l < inPts e;
  i_size : forall n p, In (n, p) (taken s) -> wid p = cwid e /\ hei p = chei e
}.
Lemma inv_new e e' s : inv e s -> qFTP e' = qFTP e -> inPts e' = inPts e -> inv e' session0.
Proof.
  intros I Q N. constructor; cbn; rewrite ?Q, ?N; try apply I; try contradiction; try discriminate. constructor.
Qed.
Lemma inv_same e e' s : inv e s -> qFTP e' = qFTP e -> inPts e' = inPts e -> cwid e' = cwid e -> chei e' = chei e -> inv e' s.
Proof. intros I Q N W H. constructor; rewrite ?Q, ?N, ?W, ?H; apply I. Qed.

Lemma reconfigure_spec l o p e e1 ok fr s : inv e s -> reconfigure l o p e = (e1, ok, fr) ->
  inv e1 (if fr then session0 else s) /\ qFTP e1 = qFTP e /\ inPts e1 = inPts e /\ forceIntra e1 = forceIntra e /\ refTime e1 = refTime e /\ set e1 = set e /\ held e1 = held e /\
  (ok = true -> wid p = cwid e1 /\ hei p = chei e1).
Proof.
  intros I E. unfold reconfigure in E.
  destruct (negb (needsConfig e) && (wid p =? cwid e) && (hei p =? chei e) && (pfmt p =? cfmt e)) eqn:C.
  - injection E as <- <- <-. repeat (apply andb_prop in C; destruct C as [C ?]). rewrite Z.eqb_eq in *. auto 20.
  - destruct (negb (supported l (pfmt p))).
    + injection E as <- <- <-. split; [eapply inv_same; [exact I|reflexivity..]|]. cbn. repeat split; discriminate.
    + destruct o; injection E as <- <- <-; cbn [qFTP inPts forceIntra refTime set held cwid chei].
      1,2,3: split; [eapply inv_new; [exact I|reflexivity..]|repeat split].
      match goal with |- context[if negb ?b then _ else _] => destruct b eqn:B end; cbn [negb].
      * split; [|repeat split]. eapply inv_same; [exact I|reflexivity..|cbn|cbn]; destruct l; try discriminate; repeat (apply andb_prop in B; destruct B as [B ?]); rewrite Z.eqb_eq in *; assumption.
      * split; [eapply inv_new; [exact I|reflexivity..]|repeat split].
Qed.

Lemma at_present k m v : mfind k m = Some v -> at_ k m = (m, v).
Proof. unfold at_. intros ->. reflexivity. Qed.

Lemma inv_add e e' s n p f : inv e s -> n = inPts e -> qFTP e' = mset n (paramsOf p) (qFTP e) -> inPts e' = f -> (f = n \/ f = n + 1) -> cwid e' = cwid e -> chei e' = chei e ->
  wid p = cwid e -> hei p = chei e -> inv e' (if f =? n then s else mkSe ((n, p) :: taken s) (gone s) (lastDts s)).
Proof.
  intros I -> Q N F W H PW PH.
  assert (K : forall k v, mfind k (mset (inPts e) (paramsOf p) (qFTP e)) = Some v -> 0 <= k <= inPts e).
  { intros k v. rewrite mfind_mset. destruct (Z.eqb_spec k (inPts e)) as [->|]; [pose proof (i_pos _ _ I); lia|apply I]. }
  assert (R : forall m q, In (m, q) (taken s) -> (forall l, lastDts s = Some l -> l < m) -> mfind m (qFTP e') = Some (paramsOf q)).
  { intros m q M L. rewrite Q, mfind_mset_neq; [apply (i_rec _ _ I); assumption|]. pose proof (i_taken _ _ I _ _ M). lia. }
  assert (SO : msorted (qFTP e')) by (rewrite Q; apply msorted_mset, I).
  pose proof (i_pos _ _ I) as P0.
  destruct (Z.eqb_spec f (inPts e)) as [E|E].
  - constructor; [exact SO|..]; rewrite ?Q, ?N, ?W, ?H, ?E; try apply I; [exact K|].
    intros m q M L. rewrite <- Q. apply R; assumption.
  - assert (f = inPts e + 1) as -> by lia. constructor; [exact SO|..]; cbn [taken lastDts map fst]; rewrite ?N, ?W, ?H.
    + intros k v X. rewrite Q in X. specialize (K _ _ X). lia.
    + lia.
    + intros m q [M|M]; [injection M as <- <-; lia|]. pose proof (i_taken _ _ I _ _ M). lia.
    + constructor; [|apply I]. intros X. apply in_map_iff in X. destruct X as ([m q] & X & Y). cbn in X. pose proof (i_taken _ _ I _ _ Y). lia.
    + intros m q [M|M] L; [injection M as <- <-; rewrite Q; apply mfind_mset_eq|apply R; assumption].
    + intros m M. pose proof (i_last _ _ I _ M). lia.
    + intros m q [M|M]; [injection M as <- <-; auto|apply (i_size _ _ I _ _ M)].
Qed.

(** What a delivered picture carries. *)
Definition right (s : session) (x : entry) (f : out) : Prop :=
  exists o d ns p, ans x = Coded o d ns /\ In (o, p) (taken (after s x)) /\ pres f = ptm p /\ org f = otm p /\ seq f = sno p /\ owid f = wid p /\ ohei f = hei p /\
    (forall r, In (d, r) (taken (after s x)) -> dec f = ptm r).

Lemma process_spec l o a p e e' x s : inv e s -> process l o a p e = (e', x) -> fair s x ->
  inv e' (after s x) /\ (forall f, deliv x = Some f -> right s x f).
Proof.
  intros I E F. unfold process in E. destruct (reconfigure l o p e) as [[e1 ok] fr] eqn:RC.
  destruct (reconfigure_spec _ _ _ _ _ _ _ _ I RC) as (I1 & _ & _ & _ & _ & _ & _ & SZ). clear RC.
  destruct ok; cbn [negb] in E; [|injection E as <- <-; split; [exact I1|discriminate]].
  destruct (negb (supported l (cfmt e1))); [injection E as <- <-; split; [exact I1|discriminate]|].
  destruct (gopCheck _ _ _ _) as [ref fi]. destruct (SZ eq_refl) as [SW SH]. clear SZ.
  destruct (isOpen e1) eqn:OP; cbn [negb] in E.
  2:{ injection E as <- <-. split; [|discriminate]. unfold after. cbn [fresh given]. set (s1 := if fr then session0 else s) in *.
      match goal with |- inv ?z _ => pose proof (inv_add e1 z s1 (inPts e1) p (inPts e1) I1 eq_refl eq_refl eq_refl (or_introl eq_refl) eq_refl eq_refl SW SH) as H end. rewrite Z.eqb_refl in H. exact H. }
  unfold fair in F. unfold after in *. destruct a as [| |op dt ns].
  - injection E as <- <-. split; [|discriminate]. cbn [fresh given ans]. set (s1 := if fr then session0 else s) in *.
    match goal with |- inv ?z _ => pose proof (inv_add e1 z s1 (inPts e1) p (inPts e1) I1 eq_refl eq_refl eq_refl (or_introl eq_refl) eq_refl eq_refl SW SH) as H end. rewrite Z.eqb_refl in H. exact H.
  - injection E as <- <-. split; [|discriminate]. cbn [fresh given ans]. set (s1 := if fr then session0 else s) in *.
    match goal with |- inv ?z _ => pose proof (inv_add e1 z s1 (inPts e1) p (inPts e1 + 1) I1 eq_refl eq_refl eq_refl (or_intror eq_refl) eq_refl eq_refl SW SH) as H end. destruct (Z.eqb_spec (inPts e1 + 1) (inPts e1)); [lia|]. exact H.
  - assert (X : fresh x = fr /\ given x = Some (inPts e1, fi, p) /\ ans x = Coded op dt ns).
    { destruct (setSlices (held e1) ns) as [h fits]. destruct fits; cbn [negb] in E; [|injection E as <- <-; auto].
      destruct (at_ op _) as [q2 v]. destruct (at_ dt q2) as [q3 w]. injection E as <- <-. auto. }
    destruct X as (X1 & X2 & X3). rewrite X1, X2, X3 in F. rewrite X1, X2, X3. set (s1 := if fr then session0 else s) in *.
    destruct F as (F1 & F2 & F3 & F4).
    (* the state with the new picture recorded *)
    set (ea := mkEnc (mset (inPts e1) (paramsOf p) (qFTP e1)) (inPts e1 + 1) false ref (set e1) (needsConfig e1) (cwid e1) (chei e1) (cfmt e1) (isOpen e1) (held e1)).
    assert (IA : inv ea (mkSe ((inPts e1, p) :: taken s1) (gone s1) (lastDts s1))).
    { pose proof (inv_add e1 ea s1 (inPts e1) p (inPts e1 + 1) I1 eq_refl eq_refl eq_refl (or_intror eq_refl) eq_refl eq_refl SW SH) as H. destruct (Z.eqb_spec (inPts e1 + 1) (inPts e1)); [lia|]. exact H. }
    assert (OB : op < inPts ea).
    { apply in_map_iff in F1. destruct F1 as ([m q] & <- & M). apply (i_taken _ _ IA) in M. cbn [fst]. lia. }
    assert (UP : forall z, qFTP z = qFTP ea \/ qFTP z = mdel dt (qFTP ea) -> inPts z = inPts ea -> cwid z = cwid ea -> chei z = chei ea ->
              inv z (mkSe ((inPts e1, p) :: taken s1) (op :: gone s1) (Some dt))).
    { intros z Q N W H. assert (QQ : forall k, k <> dt -> mfind k (qFTP z) = mfind k (qFTP ea)) by (intros k K; destruct Q as [->| ->]; [reflexivity|apply mfind_mdel_neq, K]).
      constructor; cbn [taken lastDts]; rewrite ?N, ?W, ?H; try apply IA.
      - destruct Q as [->| ->]; [|apply msorted_mdel]; apply IA.
      - intros k v V. destruct (Z.eq_dec k dt) as [->|K]; [|rewrite QQ in V by exact K; apply (i_keys _ _ IA _ _ V)].
        destruct Q as [Q|Q]; rewrite Q in V; [apply (i_keys _ _ IA _ _ V)|]. unfold msorted in *. rewrite (mfind_mdel_eq _ dt None (i_sorted _ _ IA)) in V. discriminate.
      - intros m q M L. specialize (L dt eq_refl). rewrite QQ by lia. apply (i_rec _ _ IA _ _ M). cbn [lastDts]. intros l0 L0. specialize (F4 _ L0). lia.
      - intros l0 L0. injection L0 as <-. lia. }
    destruct (setSlices (held e1) ns) as [h fits]. destruct fits; cbn [negb] in E.
    2:{ injection E as <- <-. split; [|discriminate]. apply UP; [left|..]; reflexivity. }
    change (mset (inPts e1) (paramsOf p) (qFTP e1)) with (qFTP ea) in E.
    assert (FO : forall m q, In (m, q) ((inPts e1, p) :: taken s1) -> dt <= m -> mfind m (qFTP ea) = Some (paramsOf q)).
    { intros m q M L. apply (i_rec _ _ IA _ _ M). cbn [lastDts]. intros l0 L0. specialize (F4 _ L0). lia. }
    pose proof F1 as F1'. apply in_map_iff in F1'. destruct F1' as ([m q] & M1 & M2). cbn [fst] in M1. subst m.
    rewrite (at_present _ _ _ (FO _ _ M2 F3)) in E. unfold at_ in E.
    destruct (mfind dt (qFTP ea)) as [w|] eqn:WD; injection E as <- <-.
    + split; [apply UP; [right|..]; reflexivity|]. intros f D. injection D as <-. exists op, dt, ns, q. unfold after. cbn [ans fresh given].
      fold s1. cbn [taken pres org seq owid ohei dec]. destruct (i_size _ _ IA _ _ M2) as [Y1 Y2]. cbn [cwid chei ea] in Y1, Y2. split; [reflexivity|]. split; [exact M2|]. split; [reflexivity|]. split; [reflexivity|]. split; [reflexivity|]. split; [congruence|]. split; [congruence|].
      intros r R. specialize (FO _ _ R ltac:(lia)). rewrite WD in FO. injection FO as ->. reflexivity.
    + split.
      * apply UP; try reflexivity. left. change (mdel dt (mset dt params0 (qFTP ea)) = qFTP ea). apply mext; [apply msorted_mdel, msorted_mset, IA|apply IA|]. intros k. destruct (Z.eq_dec k dt) as [->|K].
        -- rewrite (mfind_mdel_eq _ dt None); [symmetry; exact WD|]. apply msorted_mset, IA.
        -- rewrite mfind_mdel_neq, mfind_mset_neq by exact K. reflexivity.
      * intros f D. injection D as <-. exists op, dt, ns, q. unfold after. cbn [ans fresh given].
        fold s1. cbn [taken pres org seq owid ohei dec]. destruct (i_size _ _ IA _ _ M2) as [Y1 Y2]. cbn [cwid chei ea] in Y1, Y2. split; [reflexivity|]. split; [exact M2|]. split; [reflexivity|]. split; [reflexivity|]. split; [reflexivity|]. split; [congruence|]. split; [congruence|].
        intros r R. specialize (FO _ _ R ltac:(lia)). congruence.
Qed.

Lemma inv0 : inv enc0 session0.
Proof. constructor; cbn; try contradiction; try discriminate; [lia|constructor]. Qed.

Lemma step_inv l o e e' xs a : inv e (sessionOf a) -> step l o e = (e', xs) -> honest (a ++ xs) ->
  inv e' (sessionOf (a ++ xs)) /\ (forall x f, In x xs -> deliv x = Some f -> right (sessionOf a) x f /\ xs = [x]).
Proof.
  intros I E H. destruct o as [p o an| |t|r|]; cbn [step] in E.
  - destruct (process l o an p e) as [e1 x] eqn:P. injection E as <- <-. rewrite sessionOf_snoc. apply honest_snoc in H. destruct H as [_ H].
    destruct (process_spec _ _ _ _ _ _ _ _ I P H) as [A B]. split; [exact A|]. intros y f [<-|[]] D. auto.
  - injection E as <- <-. rewrite app_nil_r. split; [|intros x f []]. eapply inv_same; [exact I|reflexivity..].
  - injection E as <- <-. rewrite app_nil_r. split; [|intros x f []]. eapply inv_same; [exact I|reflexivity..].
  - injection E as <- <-. rewrite app_nil_r. split; [|intros x f []]. unfold configEvent. destruct (configure0 _ _ _ _ _ _ _ _ _ _); cbn [fst]; [|exact I]. eapply inv_same; [exact I|reflexivity..].
  - injection E as <- <-. rewrite app_nil_r. split; [|intros x f []]. eapply inv_same; [exact I|reflexivity..].
Qed.
Lemma run_inv l ops : forall e e' es a, inv e (sessionOf a) -> run l ops e = (e', es) -> honest (a ++ es) ->
  inv e' (sessionOf (a ++ es)) /\ (forall b x c f, es = b ++ x :: c -> deliv x = Some f -> right (sessionOf (a ++ b)) x f).
Proof.
  induction ops as [|o ops IH]; intros e e' es a I E H; cbn [run] in E.
  - injection E as <- <-. rewrite app_nil_r. split; [exact I|]. intros b x c f X. destruct b; discriminate.
  - destruct (step l o e) as [e1 xs] eqn:S1. destruct (run l ops e1) as [e2 ys] eqn:R. injection E as <- <-.
    rewrite app_assoc in H. destruct (step_inv _ _ _ _ _ _ I S1 (honest_app _ _ H)) as [I1 D1].
    destruct (IH _ _ _ _ I1 R H) as [I2 D2]. rewrite app_assoc. split; [exact I2|].
    intros b x c f X D. assert (L : xs = [] \/ exists y, xs = [y]).
    { destruct o; cbn [step] in S1; [destruct (process _ _ _ _ _); injection S1 as _ <-; right; eauto|injection S1 as _ <-; left; reflexivity..]. }
    destruct L as [->|[y ->]].
    + rewrite app_nil_r in D2. apply (D2 b x c f X D).
    + destruct b as [|z b]; cbn [app] in X.
      * injection X as -> _. rewrite app_nil_r. apply (D1 x f (or_introl eq_refl) D).
      * injection X as -> X. specialize (D2 b x c f X D). rewrite <- app_assoc in D2. exact D2.
Qed.

(** ** How many records are kept *)
Lemma process_keys l o a p e e' x s : inv e s -> process l o a p e = (e', x) -> fair s x ->
  inPts e' = inPts e + (match given x, ans x with Some _, Fails | None, _ => 0 | _, _ => 1 end) /\
  (forall k, mfind k (qFTP e') <> None -> mfind k (qFTP e) <> None \/ k = inPts e) /\
  (forall k oo d ns, deliv x <> None -> ans x = Coded oo d ns -> mfind k (qFTP e') <> None -> k <> d) /\
  (deliv x <> None -> given x <> None /\ exists oo d ns, ans x = Coded oo d ns).
Proof.
  intros I E F. unfold process in E. destruct (reconfigure l o p e) as [[e1 ok] fr] eqn:RC.
  destruct (reconfigure_spec _ _ _ _ _ _ _ _ I RC) as (I1 & Q1 & N1 & _ & _ & _ & _ & SZ). clear RC. rewrite <- Q1, <- N1.
  destruct ok; cbn [negb] in E; [|injection E as <- <-; cbn; repeat split; [lia|auto|congruence|congruence|congruence]].
  destruct (negb (supported l (cfmt e1))); [injection E as <- <-; cbn; repeat split; [lia|auto|congruence|congruence|congruence]|].
  destruct (gopCheck _ _ _ _) as [ref fi]. destruct (SZ eq_refl) as [SW SH]. clear SZ.
  assert (M : forall k, mfind k (mset (inPts e1) (paramsOf p) (qFTP e1)) <> None -> mfind k (qFTP e1) <> None \/ k = inPts e1).
  { intros k. rewrite mfind_mset. destruct (Z.eqb_spec k (inPts e1)); auto. }
  destruct (isOpen e1) eqn:OP; cbn [negb] in E.
  2:{ injection E as <- <-. cbn. repeat split; [lia|exact M|congruence..]. }
  destruct a as [| |op dt ns].
  - injection E as <- <-. cbn. repeat split; [lia|exact M|congruence..].
  - injection E as <- <-. cbn. repeat split; [exact M|congruence..].
  - destruct (setSlices (held e1) ns) as [h fits]. destruct fits; cbn [negb] in E.
    2:{ injection E as <- <-. cbn. repeat split; [exact M|congruence..]. }
    assert (X : fresh x = fr /\ given x = Some (inPts e1, fi, p) /\ ans x = Coded op dt ns).
    { destruct (at_ op _) as [q2 v]. destruct (at_ dt q2) as [q3 w]. injection E as <- <-. auto. }
    destruct X as (X1 & X2 & X3). unfold fair in F. rewrite X1, X2, X3 in F. set (s1 := if fr then session0 else s) in *.
    destruct F as (F1 & F2 & F3 & F4).
    assert (P : exists v, mfind op (mset (inPts e1) (paramsOf p) (qFTP e1)) = Some v).
    { rewrite mfind_mset. destruct (Z.eqb_spec op (inPts e1)); [eauto|]. destruct F1 as [F1|F1]; [cbn in F1; congruence|].
      apply in_map_iff in F1. destruct F1 as ([m q] & F5 & F6). cbn in F5. subst m. exists (paramsOf q). apply (i_rec _ _ I1 _ _ F6). intros l0 L. specialize (F4 _ L). lia. }
    destruct P as [v P]. rewrite (at_present _ _ _ P) in E.
    assert (SO : msorted (mset (inPts e1) (paramsOf p) (qFTP e1))) by apply msorted_mset, I1.
    set (q1 := mset (inPts e1) (paramsOf p) (qFTP e1)) in *.
    assert (D : exists q3 w, at_ dt q1 = (q3, w) /\ msorted q3 /\ forall k, k <> dt -> mfind k q3 = mfind k q1).
    { unfold at_. destruct (mfind dt q1) as [w|]; [exists q1, w; auto|]. exists (mset dt params0 q1), params0. split; [reflexivity|]. split; [apply msorted_mset, SO|]. intros k K. apply mfind_mset_neq, K. }
    destruct D as (q3 & w & D & S3 & D3). rewrite D in E. injection E as <- <-. cbn [given ans deliv qFTP inPts]. clear -M S3 D3. split; [lia|]. split; [|split].
    + intros k K. apply M. destruct (Z.eq_dec k dt) as [->|N]; [rewrite (mfind_mdel_eq _ dt None S3) in K; congruence|]. rewrite mfind_mdel_neq, D3 in K by exact N. exact K.
    + intros k oo d ns' _ A K. injection A as <- <- <-. intros ->. rewrite (mfind_mdel_eq _ dt None S3) in K. congruence.
    + intros _. split; [discriminate|]. eauto.
Qed.

Lemma sorted_bounded {A} (m : zmap A) : forall l hi, sorted_from (Some l) m -> (forall k v, In (k, v) m -> k <= hi) -> m <> [] -> Z.of_nat (length m) <= hi - l.
Proof.
  induction m as [|[k v] t IH]; intros l hi S1 B N; [congruence|]. destruct S1 as [L S1]. cbn [length].
  pose proof (B k v (or_introl eq_refl)) as K. destruct t as [|x t]; [cbn; lia|].
  assert (Z.of_nat (length (x :: t)) <= hi - k) by (apply IH; [exact S1|intros; apply (B k0 v0); right; assumption|discriminate]). lia.
Qed.
Lemma sorted_length {A} (m : zmap A) lo hi : msorted m -> lo <= hi + 1 -> (forall k, mfind k m <> None -> lo <= k <= hi) -> Z.of_nat (length m) <= hi - lo + 1.
Proof.
  intros S1 L B. destruct m as [|[k v] t] eqn:E; [cbn; lia|].
  assert (Z.of_nat (length ((k, v) :: t)) <= hi - (lo - 1)); [|lia]. apply sorted_bounded; [|intros a w I1|discriminate].
  - destruct S1 as [_ S1]. split; [|exact S1]. specialize (B k). cbn [mfind] in B. rewrite Z.eqb_refl in B. specialize (B ltac:(discriminate)). lia.
  - apply (B a). rewrite (In_mfind _ None a w S1 I1). discriminate.
Qed.

Lemma delivered_app a b : delivered (a ++ b) = delivered a ++ delivered b.
Proof. unfold delivered. apply flat_map_app. Qed.
Lemma accepted_app a b : accepted (a ++ b) = (accepted a + accepted b)%nat.
Proof. unfold accepted. rewrite filter_app, app_length. reflexivity. Qed.
Lemma asked_app a b : asked (a ++ b) = asked a ++ asked b.
Proof. unfold asked. apply flat_map_app. Qed.
Lemma steady_app d a b : steady d (a ++ b) -> steady d a.
Proof. intros H c x e o dt ns E. apply (H c x (e ++ b)). rewrite E, <- app_assoc. reflexivity. Qed.

(** Where the records are. *)
Definition kept (delay : Z) (e : enc) (a : list entry) : Prop :=
  inPts e = Z.of_nat (accepted a) /\ (length (delivered a) <= accepted a)%nat /\
  forall k, mfind k (qFTP e) <> None -> Z.of_nat (length (delivered a)) - delay <= k.
Lemma kept_same delay e e' a : kept delay e a -> qFTP e' = qFTP e -> inPts e' = inPts e -> kept delay e' (a ++ []).
Proof. unfold kept. rewrite app_nil_r. intros (A & B & C) -> ->. auto. Qed.
Lemma step_kept delay l o e e' xs a : 0 <= delay -> inv e (sessionOf a) -> kept delay e a -> step l o e = (e', xs) -> honest (a ++ xs) -> steady delay (a ++ xs) -> kept delay e' (a ++ xs).
Proof.
  intros D0 I K E H ST. destruct o as [p o an| |t|r|]; cbn [step] in E.
  - destruct (process l o an p e) as [e1 x] eqn:P. injection E as <- <-. apply honest_snoc in H. destruct H as [_ H].
    destruct (process_keys _ _ _ _ _ _ _ _ I P H) as (A & B & C & D). destruct K as (K1 & K2 & K3). unfold kept. rewrite accepted_app, delivered_app, app_length.
    destruct (deliv x) as [f|] eqn:DX.
    + destruct (D ltac:(discriminate)) as (D1 & oo & d & ns & D2). destruct (ST a x [] oo d ns eq_refl D1 D2) as [D3 _].
      replace (delivered [x]) with [f] by (unfold delivered; cbn; rewrite DX; reflexivity).
      assert (AC : accepted [x] = 1%nat) by (unfold accepted; cbn; rewrite D2; destruct (given x); [reflexivity|congruence]).
      rewrite AC. rewrite D2 in A. destruct (given x) as [g|]; [|congruence]. cbn [length]. split; [lia|]. split; [lia|].
      intros k N. specialize (C k oo d ns ltac:(discriminate) D2 N). destruct (B k N) as [N'| ->]; [apply K3 in N'; lia|lia].
    + replace (delivered [x]) with (@nil out) by (unfold delivered; cbn; rewrite DX; reflexivity). cbn [length]. rewrite Nat.add_0_r.
      assert (AC : Z.of_nat (accepted [x]) = match given x, ans x with Some _, Fails | None, _ => 0 | _, _ => 1 end).
      { unfold accepted. cbn [filter]. destruct (given x); [destruct (ans x)|]; reflexivity. }
      split; [lia|]. split; [lia|]. intros k N. destruct (B k N) as [N'| ->]; [apply K3 in N'; lia|lia].
  - injection E as <- <-. apply (kept_same _ e); auto.
  - injection E as <- <-. apply (kept_same _ e); auto.
  - injection E as <- <-. apply (kept_same _ e); [exact K| |]; unfold configEvent; destruct (configure0 _ _ _ _ _ _ _ _ _ _); reflexivity.
  - injection E as <- <-. apply (kept_same _ e); auto.
Qed.
Lemma run_kept delay l ops : 0 <= delay -> forall e e' es a, inv e (sessionOf a) -> kept delay e a -> run l ops e = (e', es) -> honest (a ++ es) -> steady delay (a ++ es) -> kept delay e' (a ++ es).
Proof.
  intros D0. induction ops as [|o ops IH]; intros e e' es a I K E H ST; cbn [run] in E.
  - injection E as <- <-. rewrite app_nil_r. exact K.
  - destruct (step l o e) as [e1 xs] eqn:S1. destruct (run l ops e1) as [e2 ys] eqn:R. injection E as <- <-.
    rewrite app_assoc in *. eapply IH; [|eapply step_kept|..]; try eassumption; [eapply (step_inv _ _ _ _ _ _ I S1)| |]; eauto using honest_app, steady_app.
Qed.

(** ** Intra requests *)
Lemma process_given l o a p e e' x : process l o a p e = (e', x) -> given x <> None ->
  exists n, given x = Some (n, snd (gopCheck (gopTime (set e)) (ptm p) (refTime e) (forceIntra e)), p) /\
    refTime e' = fst (gopCheck (gopTime (set e)) (ptm p) (refTime e) (forceIntra e)) /\ forceIntra e' = false /\ set e' = set e.
Proof.
  intros E G. unfold process in E. destruct (reconfigure l o p e) as [[e1 ok] fr] eqn:RC.
  assert (RS : forceIntra e1 = forceIntra e /\ refTime e1 = refTime e /\ set e1 = set e).
  { unfold reconfigure in RC. destruct (_ && _); [injection RC as <- _ _; auto|]. destruct (negb _); [injection RC as <- _ _; auto|]. destruct o; injection RC as <- _ _; auto. }
  destruct RS as (R1 & R2 & R3). rewrite R1, R2, R3 in E. destruct ok; cbn [negb] in E; [|injection E as <- <-; cbn in G; congruence].
  destruct (negb (supported l (cfmt e1))); [injection E as <- <-; cbn in G; congruence|].
  destruct (gopCheck _ _ _ _) as [ref fi]. cbn [fst snd]. destruct (isOpen e1); cbn [negb] in E; [|injection E as <- <-; cbn in G; congruence].
  exists (inPts e1). destruct a as [| |op dt ns]; [injection E as <- <-; auto..|].
  destruct (setSlices (held e1) ns) as [h fits]. destruct fits; cbn [negb] in E; [|injection E as <- <-; auto].
  destruct (at_ op _) as [q2 v]. destruct (at_ dt q2) as [q3 w]. injection E as <- <-. auto.
Qed.
Lemma run_pictures_cons l o ops e e' es : pictures (o :: ops) -> run l (o :: ops) e = (e', es) -> allGiven es ->
  exists p op a e1 x es', o = Picture p op a /\ process l op a p e = (e1, x) /\ run l ops e1 = (e', es') /\ es = x :: es' /\ given x <> None /\ allGiven es' /\ pictures ops.
Proof.
  intros P E G. assert (P1 := Forall_inv P). assert (P2 := Forall_inv_tail P). destruct o as [p op a| | | |]; try contradiction.
  cbn [run step] in E. destruct (process l op a p e) as [e1 x] eqn:PR. destruct (run l ops e1) as [e2 ys] eqn:R. injection E as <- <-. cbn [app] in G.
  exists p, op, a, e1, x, ys. repeat split; auto; [apply (Forall_inv G)|apply (Forall_inv_tail G)].
Qed.
Lemma last_cons {A} (l : list A) x d : last (x :: l) d = last l x.
Proof. revert x d. induction l as [|y l IH]; intros x d; [reflexivity|]. change (last (x :: y :: l) d) with (last (y :: l) d). rewrite !IH. reflexivity. Qed.

Lemma intra_grid l ops g : 0 < g -> forall e e' es t0, pictures ops -> run l ops e = (e', es) -> allGiven es -> gopTime (set e) = g -> forceIntra e = false ->
  0 < refTime e -> refTime e - g <= t0 < refTime e -> spaced g t0 (map fst (asked es)) ->
  forall b t i c, asked es = b ++ (t, i) :: c -> (i = true <-> exists k, last (map fst b) t0 < refTime e + k * g <= t).
Proof.
  intros G0. induction ops as [|o ops IH]; intros e e' es t0 P E AG GT FI R0 RT SP b t i c EQ.
  - cbn in E. injection E as <- <-. destruct b; discriminate.
  - destruct (run_pictures_cons _ _ _ _ _ _ P E AG) as (p & op & a & e1 & x & es' & -> & PR & RN & -> & GX & AG' & P'). clear P E AG.
    destruct (process_given _ _ _ _ _ _ _ PR GX) as (n & GV & RF & FF & SS). rewrite GT, FI in *.
    assert (GC : gopCheck g (ptm p) (refTime e) false = if refTime e <=? ptm p then (refTime e + g, true) else (refTime e, false)).
    { unfold gopCheck. destruct (Z.gtb_spec g 0); [|lia]. destruct (Z.eqb_spec (refTime e) 0); [lia|]. destruct (Z.leb_spec (refTime e - ptm p) 0), (Z.leb_spec (refTime e) (ptm p)); try lia; reflexivity. }
    rewrite GC in *. clear GC. assert (AS : asked (x :: es') = (ptm p, refTime e <=? ptm p) :: asked es').
    { unfold asked. cbn [flat_map]. rewrite GV. destruct (refTime e <=? ptm p); reflexivity. }
    rewrite AS in *. cbn [map fst spaced] in SP. destruct SP as [SP1 SP2].
    destruct b as [|[t1 i1] b]; cbn [app] in EQ.
    + injection EQ as <- <- _. cbn [map last]. destruct (Z.leb_spec (refTime e) (ptm p)).
      * split; [|reflexivity]. intros _. exists 0. lia.
      * split; [discriminate|]. intros (k & K). assert (k <= -1) by nia. nia.
    + injection EQ as <- <- EQ. cbn [map fst]. rewrite last_cons.
      assert (X : exists k0, refTime e1 = refTime e + k0 * g) by (destruct (refTime e <=? ptm p); cbn [fst] in RF; [exists 1|exists 0]; lia). destruct X as [k0 X].
      assert (RX : 0 < refTime e1 /\ refTime e1 - g <= ptm p < refTime e1).
      { destruct (Z.leb_spec (refTime e) (ptm p)); cbn [fst] in RF; lia. }
      rewrite (IH e1 e' es' (ptm p) P' RN AG' ltac:(congruence) FF (proj1 RX) (proj2 RX) SP2 b t i c EQ).
      split; intros (k & K); [exists (k + k0)|exists (k - k0)]; rewrite X in *; nia.
Qed.

Lemma intra_burst l ops g : 0 < g -> forall e e' es, pictures ops -> run l ops e = (e', es) -> allGiven es -> gopTime (set e) = g -> 0 < refTime e ->
  (forall t i, In (t, i) (asked es) -> refTime e + Z.of_nat (length ops) * g <= t + g) ->
  (forall t i, In (t, i) (asked es) -> i = true) /\ refTime e' = refTime e + Z.of_nat (length ops) * g.
Proof.
  intros G0. induction ops as [|o ops IH]; intros e e' es P E AG GT R0 T.
  - cbn in E. injection E as <- <-. split; [intros t i []|cbn; lia].
  - destruct (run_pictures_cons _ _ _ _ _ _ P E AG) as (p & op & a & e1 & x & es' & -> & PR & RN & -> & GX & AG' & P'). clear P E AG.
    destruct (process_given _ _ _ _ _ _ _ PR GX) as (n & GV & RF & FF & SS). rewrite GT in *.
    cbn [length] in *. rewrite Nat2Z.inj_succ in *. unfold asked in T. cbn [flat_map] in T. rewrite GV in T. fold (asked es') in T.
    pose proof (T _ _ (or_introl eq_refl)) as T1.
    assert (LE : refTime e - ptm p <= 0) by nia.
    assert (GC : gopCheck g (ptm p) (refTime e) (forceIntra e) = (refTime e + g, true)).
    { unfold gopCheck. destruct (Z.gtb_spec g 0); [|lia]. destruct (Z.eqb_spec (refTime e) 0); [lia|]. destruct (Z.leb_spec (refTime e - ptm p) 0); [reflexivity|lia]. }
    rewrite GC in *. cbn [fst snd] in *.
    destruct (IH e1 e' es' P' RN AG' ltac:(congruence) ltac:(lia)) as [A B].
    { intros t i IN. specialize (T t i (or_intror IN)). rewrite RF. lia. }
    split; [|rewrite B, RF; lia]. unfold asked. cbn [flat_map]. rewrite GV. fold (asked es'). intros t i [X|X]; [injection X as <- <-; reflexivity|exact (A _ _ X)].
Qed.

(** ** A picture of too many units *)
Lemma stuck l ops : forall e e' es, held e = MAX_SLICES -> run l ops e = (e', es) ->
  (forall o, In o ops -> o <> NewQueue /\ forall p op x y, o <> Picture p op (Coded x y [])) -> delivered es = [].
Proof.
  induction ops as [|o ops IH]; intros e e' es H E N; cbn [run] in E; [injection E as <- <-; reflexivity|].
  destruct (step l o e) as [e1 xs] eqn:S1. destruct (run l ops e1) as [e2 ys] eqn:R. injection E as <- <-. rewrite delivered_app.
  assert (K : held e1 = MAX_SLICES /\ delivered xs = []).
  { destruct (N o (or_introl eq_refl)) as [N1 N2]. destruct o as [p op a| |t|r|]; cbn [step] in S1; try (injection S1 as <- <-; auto).
    - destruct (process l op a p e) as [e3 x] eqn:P. injection S1 as <- <-. unfold process in P. destruct (reconfigure l op p e) as [[e4 ok] fr] eqn:RC.
      assert (H4 : held e4 = MAX_SLICES).
      { rewrite <- H. unfold reconfigure in RC. destruct (_ && _); [injection RC as <- _ _; auto|]. destruct (negb _); [injection RC as <- _ _; auto|]. destruct op; injection RC as <- _ _; auto. }
      destruct ok; cbn [negb] in P; [|injection P as <- <-; auto]. destruct (negb (supported l (cfmt e4))); [injection P as <- <-; auto|].
      destruct (gopCheck _ _ _ _) as [ref fi]. destruct (isOpen e4); cbn [negb] in P; [|injection P as <- <-; auto].
      destruct a as [| |o1 d1 ns]; [injection P as <- <-; auto..|].
      assert (NS : ns <> []) by (intros ->; exact (N2 p op o1 d1 eq_refl)).
      assert (SS : setSlices (held e4) ns = (MAX_SLICES, false)).
      { unfold setSlices. rewrite H4. destruct ns; [congruence|]. cbn [length]. rewrite Nat2Z.inj_succ. destruct (Z.leb_spec (MAX_SLICES + Z.succ (Z.of_nat (length ns))) MAX_SLICES); [lia|reflexivity]. }
      rewrite SS in P. cbn [negb] in P. injection P as <- <-. auto.
    - split; [|reflexivity]. unfold configEvent. destruct (configure0 _ _ _ _ _ _ _ _ _ _); exact H.
    - congruence. }
  destruct K as [K1 K2]. rewrite K2. apply (IH e1 e2 ys K1); [exact R|]. intros o' O. apply N. right. exact O.
Qed.

(** ** Within one session *)
Lemma after_grows x s : fresh x = false -> incl (taken s) (taken (after s x)).
Proof.
  intros F. unfold after. rewrite F. destruct (given x) as [[[n i] p]|]; [|apply incl_refl].
  destruct (ans x); cbn [taken]; [apply incl_refl|apply incl_tl, incl_refl..].
Qed.
Lemma session_grows b : forall s, Forall (fun y => fresh y = false) b -> incl (taken s) (taken (fold_left after b s)).
Proof.
  induction b as [|y b IH]; intros s F; [apply incl_refl|]. cbn [fold_left]. eapply incl_tran; [apply after_grows, (Forall_inv F)|apply IH, (Forall_inv_tail F)].
Qed.
Lemma last_grows b : forall a l, honest (a ++ b) -> Forall (fun y => fresh y = false) b -> lastDts (sessionOf a) = Some l -> exists l', lastDts (sessionOf (a ++ b)) = Some l' /\ l <= l'.
Proof.
  induction b as [|y b IH]; intros a l H F L; [exists l; rewrite app_nil_r; split; [exact L|lia]|].
  pose proof (H a y b eq_refl) as FY. pose proof (Forall_inv F) as F1. cbn beta in F1.
  assert (X : exists l1, lastDts (sessionOf (a ++ [y])) = Some l1 /\ l <= l1).
  { rewrite sessionOf_snoc. unfold fair in FY. unfold after. rewrite F1 in *. destruct (given y) as [[[n i] p]|]; [|exists l; split; [exact L|lia]].
    destruct (ans y) as [| |o d ns]; [exists l; split; [exact L|lia]..|]. exists d. split; [reflexivity|]. destruct FY as (_ & _ & _ & FY). specialize (FY _ L). lia. }
  destruct X as (l1 & X1 & X2). rewrite (app_assoc a [y] b : a ++ y :: b = _). destruct (IH (a ++ [y]) l1) as (l' & Y1 & Y2); [rewrite <- app_assoc; exact H|apply (Forall_inv_tail F)|exact X1|]. exists l'. split; [exact Y1|lia].
Qed.

(** ** Requests from outside stay until a picture reaches the codec *)
Lemma process_not_given l o a p e e' x : process l o a p e = (e', x) -> given x = None -> forceIntra e = true -> forceIntra e' = true.
Proof.
  intros E G F. unfold process in E. destruct (reconfigure l o p e) as [[e1 ok] fr] eqn:RC.
  assert (RS : forceIntra e1 = forceIntra e).
  { unfold reconfigure in RC. destruct (_ && _); [injection RC as <- _ _; auto|]. destruct (negb _); [injection RC as <- _ _; auto|]. destruct o; injection RC as <- _ _; auto. }
  rewrite F in RS. destruct ok; cbn [negb] in E; [|injection E as <- <-; exact RS].
  destruct (negb (supported l (cfmt e1))); [injection E as <- <-; exact RS|].
  destruct (gopCheck _ _ _ _) as [ref fi] eqn:GC.
  assert (FI : fi = true).
  { unfold gopCheck in GC. rewrite RS in GC. destruct (_ >? 0); [|injection GC as _ <-; reflexivity]. destruct (_ <=? 0); injection GC as _ <-; reflexivity. }
  destruct (isOpen e1); cbn [negb] in E; [|injection E as <- <-; exact FI].
  destruct a as [| |op dt ns]; [injection E as <- <-; discriminate..|].
  destruct (setSlices (held e1) ns) as [h fits]. destruct fits; cbn [negb] in E; [|injection E as <- <-; discriminate].
  destruct (at_ op _) as [q2 v]. destruct (at_ dt q2) as [q3 w]. injection E as <- <-. discriminate.
Qed.
Lemma request_kept l ops : forall e e' es, forceIntra e = true -> run l ops e = (e', es) -> forall t i r, asked es = (t, i) :: r -> i = true.
Proof.
  induction ops as [|o ops IH]; intros e e' es F E t i r A; cbn [run] in E; [injection E as <- <-; discriminate|].
  destruct (step l o e) as [e1 xs] eqn:S1. destruct (run l ops e1) as [e2 ys] eqn:R. injection E as <- <-. rewrite asked_app in A.
  destruct o as [p op a| |tt|rq|]; cbn [step] in S1.
  - destruct (process l op a p e) as [e3 x] eqn:P. injection S1 as <- <-. destruct (given x) as [g|] eqn:G.
    + destruct (process_given _ _ _ _ _ _ _ P) as (n & GV & _); [congruence|]. unfold asked in A at 1. cbn [flat_map] in A. rewrite GV in A. cbn [app] in A. injection A as _ <- _.
      unfold gopCheck. rewrite F. destruct (_ >? 0); [|reflexivity]. destruct (_ <=? 0); reflexivity.
    + pose proof (process_not_given _ _ _ _ _ _ _ P G F) as F3. unfold asked in A at 1. cbn [flat_map] in A. rewrite G in A. cbn [app] in A. exact (IH _ _ _ F3 R t i r A).
  - injection S1 as <- <-. exact (IH (setForce e) _ _ eq_refl R t i r A).
  - injection S1 as <- <-. refine (IH _ _ _ _ R t i r A). exact F.
  - injection S1 as <- <-. refine (IH _ _ _ _ R t i r A). unfold configEvent. destruct (configure0 _ _ _ _ _ _ _ _ _ _); exact F.
  - injection S1 as <- <-. refine (IH _ _ _ _ R t i r A). exact F.
Qed.

(** ** Settings *)
Definition validSet (s : settings) : Prop :=
  0 < bitrate s /\ 0 < gop s /\ 0 < threads s /\ preset s <> ""%string /\ 0 < fps s /\ 0 <= lookahead s /\ (gopTime s = 0 \/ MIN_GOP_TIME <= gopTime s) /\ (ftime s = 0 \/ ftime s = 1000000 / fps s).
Lemma configure0_valid br f g la bf th an pr gt s s' : configure0 br f g la bf th an pr gt s = Some s' -> 0 <= gt -> validSet s'.
Proof.
  unfold configure0. intros E G. destruct (_ || _) eqn:C; [discriminate|]. injection E as <-. rewrite !orb_false_iff, !Z.leb_gt, Z.ltb_ge, String.eqb_neq in C. destruct C as ((((A & B) & C) & D) & F).
  unfold validSet. cbn [bitrate gop threads preset fps lookahead gopTime ftime]. unfold DEFAULT_FPS, MIN_GOP_TIME. repeat split; try lia; auto.
  - destruct (Z.leb_spec f 0); lia.
  - destruct (Z.gtb_spec gt 0); [|lia]. destruct (Z.ltb_spec gt 1000000); lia.
  - destruct (Z.leb_spec f 0); [left; reflexivity|right; reflexivity].
Qed.
Lemma asUnsigned_nonneg x : 0 <= asUnsigned x. Proof. apply Z.mod_pos_bound. lia. Qed.
Lemma step_valid l o e e' xs : validSet (set e) -> step l o e = (e', xs) -> validSet (set e').
Proof.
  intros V E. destruct o as [p op a| |t|r|]; cbn [step] in E; try (injection E as <- <-; exact V).
  - destruct (process l op a p e) as [e3 x] eqn:P. injection E as <- <-. replace (set e3) with (set e); [exact V|]. unfold process in P. destruct (reconfigure l op p e) as [[e1 ok] fr] eqn:RC.
    assert (RS : set e1 = set e).
    { unfold reconfigure in RC. destruct (_ && _); [injection RC as <- _ _; auto|]. destruct (negb _); [injection RC as <- _ _; auto|]. destruct op; injection RC as <- _ _; auto. }
    rewrite <- RS. destruct ok; cbn [negb] in P; [|injection P as <- <-; reflexivity].
    destruct (negb (supported l (cfmt e1))); [injection P as <- <-; reflexivity|].
    destruct (gopCheck _ _ _ _) as [ref fi]. destruct (isOpen e1); cbn [negb] in P; [|injection P as <- <-; reflexivity].
    destruct a as [| |o1 dt ns]; [injection P as <- <-; reflexivity..|].
    destruct (setSlices (held e1) ns) as [h fits]. destruct fits; cbn [negb] in P; [|injection P as <- <-; reflexivity].
    destruct (at_ o1 _) as [q2 v]. destruct (at_ dt q2) as [q3 w]. injection P as <- <-. reflexivity.
  - injection E as <- <-. unfold configEvent. destruct (configure0 _ _ _ _ _ _ _ _ _ _) as [s'|] eqn:C; [|exact V]. cbn [fst set]. apply (configure0_valid _ _ _ _ _ _ _ _ _ _ _ C).
    unfold pickU. destruct (rGopTime r); [apply asUnsigned_nonneg|]. destruct V as (_ & _ & _ & _ & _ & _ & [V|V] & _); unfold MIN_GOP_TIME in *; lia.
Qed.
Lemma run_valid l ops : forall e e' es, validSet (set e) -> run l ops e = (e', es) -> validSet (set e').
Proof.
  induction ops as [|o ops IH]; intros e e' es V E; cbn [run] in E; [injection E as <- <-; exact V|].
  destruct (step l o e) as [e1 xs] eqn:S1. destruct (run l ops e1) as [e2 ys] eqn:R. injection E as <- <-. eapply IH; [eapply step_valid; eassumption|exact R].
Qed.
Lemma valid0 : validSet (set enc0).
Proof. unfold validSet, MIN_GOP_TIME. cbn [set enc0 bitrate gop threads preset fps lookahead gopTime ftime]. split; [lia|]. split; [lia|]. split; [lia|]. split; [discriminate|]. split; [lia|]. split; [lia|]. split; [left; reflexivity|]. right. reflexivity. Qed.

(** ** A codec that could not be opened *)
Lemma closed_stays l ops : forall e e' es, needsConfig e = false -> isOpen e = false -> run l ops e = (e', es) -> pictures ops ->
  (forall p o a, In (Picture p o a) ops -> wid p = cwid e /\ hei p = chei e /\ pfmt p = cfmt e) -> asked es = [].
Proof.
  induction ops as [|o ops IH]; intros e e' es N C E P S1; cbn [run] in E; [injection E as <- <-; reflexivity|].
  pose proof (Forall_inv P) as P1. destruct o as [p op a| | | |]; try contradiction. cbn [step] in E.
  destruct (process l op a p e) as [e1 x] eqn:PR. destruct (run l ops e1) as [e2 ys] eqn:R. injection E as <- <-. change (asked ([x] ++ ys) = []). rewrite asked_app.
  destruct (S1 p op a (or_introl eq_refl)) as (S2 & S3 & S4). unfold process, reconfigure in PR. rewrite N, S2, S3, S4, !Z.eqb_refl in PR. cbn [negb andb] in PR.
  assert (X : asked [x] = [] /\ needsConfig e1 = false /\ isOpen e1 = false /\ cwid e1 = cwid e /\ chei e1 = chei e /\ cfmt e1 = cfmt e).
  { destruct (negb (supported l (cfmt e))); [injection PR as <- <-; auto 10|]. destruct (gopCheck _ _ _ _) as [ref fi]. rewrite C in PR. cbn [negb] in PR. injection PR as <- <-. cbn. auto 10. }
  destruct X as (X1 & X2 & X3 & X4 & X5 & X6). rewrite X1. apply (IH e1 e2 ys X2 X3 R (Forall_inv_tail P)). rewrite X4, X5, X6. intros q o' a' Q. apply (S1 q o' a'). right. exact Q.
Qed.

(** ** A coded picture comes from a call of the codec *)
Lemma run_given l ops : forall e e' es, run l ops e = (e', es) -> forall y f, In y es -> deliv y = Some f -> given y <> None.
Proof.
  induction ops as [|o ops IH]; intros e e' es R y f Y D; cbn [run] in R; [injection R as <- <-; contradiction|].
  destruct (step l o e) as [e2 xs] eqn:S1. destruct (run l ops e2) as [e3 ys] eqn:R2. injection R as <- <-. apply in_app_or in Y. destruct Y as [Y|Y]; [|exact (IH _ _ _ R2 _ _ Y D)].
  destruct o as [p op a| | | |]; cbn [step] in S1; try (injection S1 as <- <-; contradiction). destruct (process l op a p e) as [e4 z] eqn:P. injection S1 as <- <-. destruct Y as [->|[]].
  unfold process in P. destruct (reconfigure l op p e) as [[e5 ok] fr]. destruct ok; cbn [negb] in P; [|injection P as _ <-; discriminate]. destruct (negb (supported l (cfmt e5))); [injection P as _ <-; discriminate|].
  destruct (gopCheck _ _ _ _) as [ref fi]. destruct (isOpen e5); cbn [negb] in P; [|injection P as _ <-; discriminate]. destruct a as [| |o1 d1 ns]; [injection P as _ <-; discriminate..|].
  destruct (setSlices _ _) as [h fits]. destruct fits; cbn [negb] in P; [|injection P as _ <-; discriminate]. destruct (at_ o1 _) as [q2 v]. destruct (at_ d1 q2) as [q3 w]. injection P as _ <-. discriminate.
Qed.
Lemma run_nodup l ops : forall e e' es c, inv e (sessionOf c) -> run l ops e = (e', es) -> honest (c ++ es) -> forall a x b, es = a ++ x :: b -> NoDup (map fst (taken (after (sessionOf (c ++ a)) x))).
Proof.
  induction ops as [|o ops IH]; intros e e' es c I R H a x b E; cbn [run] in R.
  - injection R as <- <-. destruct a; discriminate.
  - destruct (step l o e) as [e2 xs] eqn:S1. destruct (run l ops e2) as [e3 ys] eqn:R2. injection R as <- <-. rewrite app_assoc in H.
    destruct (step_inv _ _ _ _ _ _ I S1 (honest_app _ _ H)) as [I1 _].
    assert (L : xs = [] \/ exists y, xs = [y]).
    { destruct o; cbn [step] in S1; [destruct (process _ _ _ _ _); injection S1 as _ <-; right; eauto|injection S1 as _ <-; left; reflexivity..]. }
    destruct L as [->|[y ->]]; cbn [app] in E; [rewrite app_nil_r in I1, H; exact (IH _ _ _ _ I1 R2 H _ _ _ E)|].
    destruct a as [|z a]; cbn [app] in E; injection E as -> E.
    + rewrite sessionOf_snoc in I1. rewrite app_nil_r. apply (i_nodup _ _ I1).
    + specialize (IH _ _ _ _ I1 R2 H _ _ _ E). rewrite <- app_assoc in IH. exact IH.
Qed.
Lemma nodup_fun {A B} (m : list (A * B)) k v w : NoDup (map fst m) -> In (k, v) m -> In (k, w) m -> v = w.
Proof.
  induction m as [|[a b] m IH]; intros N V W; [contradiction|]. cbn [map fst] in N. apply NoDup_cons_iff in N. destruct N as [N1 N2].
  destruct V as [V|V], W as [W|W]; [congruence| | |exact (IH N2 V W)].
  - injection V as -> ->. exfalso. apply N1. apply (in_map fst) in W. exact W.
  - injection W as -> ->. exfalso. apply N1. apply (in_map fst) in V. exact V.
Qed.
