From Verif Require Import Base ZMap NetModel NetProofs PipeModel PipeSpec PipeProofs WireSpec WireProofs.

(** ** Every input that shares the reader of a connected queue is listed in the queue. *)
Definition MIx (n : net) (X : Z -> Z -> Prop) : Prop := forall q k g y r o z, nth_error (qs n) q = Some k -> qconn k = true ->
  mfind g (fs n) = Some y -> mfind r (frd y) = Some (Some o) -> nth_error (rds n) o = Some z -> rq z = Some q -> X g r \/ In (g, r) (qrd k).
Definition none2 (_ _ : Z) : Prop := False.
Definition MI (n : net) : Prop := MIx n none2.

(** Fewer connected queues, fewer inputs, fewer readers. *)
Lemma mi_less n n' (X Y : Z -> Z -> Prop) : MIx n X ->
  (forall q k', nth_error (qs n') q = Some k' -> qconn k' = true -> exists k, nth_error (qs n) q = Some k /\ qconn k = true /\ qrd k = qrd k') ->
  (forall q o z', nth_error (rds n') o = Some z' -> rq z' = Some q -> exists z, nth_error (rds n) o = Some z /\ rq z = Some q) ->
  (forall g y' r o, mfind g (fs n') = Some y' -> mfind r (frd y') = Some (Some o) -> exists y, mfind g (fs n) = Some y /\ mfind r (frd y) = Some (Some o)) ->
  (forall g r y', mfind g (fs n') = Some y' -> mfind r (frd y') <> None -> X g r -> Y g r) -> MIx n' Y.
Proof.
  intros M H1 H2 H3 H4 q k g y r o z A B C D E F. destruct (H1 q k A B) as (k1 & A1 & B1 & C1). destruct (H2 q o z E F) as (z1 & E1 & F1).
  destruct (H3 g y r o C D) as (y1 & G1 & G2). rewrite <- C1. destruct (M q k1 g y1 r o z1 A1 B1 G1 G2 E1 F1) as [HX|HI]; [left|right; exact HI].
  apply (H4 g r y C); [congruence|exact HX].
Qed.

Lemma drop_track n p n' b : dropQueue n p = Ok (n', b) -> fs n' = fs n /\ rds n' = rds n /\
  (forall q k, nth_error (qs n') q = Some k -> qconn k = true -> nth_error (qs n) q = Some k /\ p <> Some q) /\
  (forall q k, p <> Some q -> nth_error (qs n) q = Some k -> nth_error (qs n') q = Some k).
Proof.
  intros H. destruct p as [q0|]; cbn [dropQueue] in H.
  2:{ inversion H; subst. repeat (split; [reflexivity|]). split; [intros q k A B; split; [exact A|discriminate]|auto]. }
  apply bind_ok in H. destruct H as (k0 & E & H). unfold getQ in E. destruct (nth_error (qs n) q0) as [k1|] eqn:En; [|discriminate].
  assert (L : q0 < length (qs n)) by (apply nth_error_Some; congruence).
  assert (Hx : exists k2, n' = putQ n q0 k2 /\ qconn k2 = false).
  { destruct (qconn k0); inversion H; subst; eexists; split; reflexivity. }
  destruct Hx as (k2 & -> & C2). cbn [fs rds qs putQ]. repeat (split; [reflexivity|]). split.
  - intros q k A B. destruct (Nat.eq_dec q0 q) as [->|Hq].
    + rewrite nth_error_upd_eq in A by exact L. inversion A; subst. congruence.
    + rewrite nth_error_upd_neq in A by exact Hq. split; [exact A|congruence].
  - intros q k A B. rewrite nth_error_upd_neq; [exact B|congruence].
Qed.

(** What taking a filter off a reader does. *)
Lemma disc_track n o f n' b x : WF n -> nth_error (rds n) o = Some x -> readerDisconnect n o f = Ok (n', b) -> fs n' = fs n /\
  (forall q k', nth_error (qs n') q = Some k' -> qconn k' = true -> exists k, nth_error (qs n) q = Some k /\ qconn k = true /\
     ((rq x <> Some q /\ qrd k' = qrd k) \/ (rq x = Some q /\ (if existsb (Z.eqb f) (rfs x) then qrd k' = dropReader f (qrd k) else qrd k' = qrd k)))) /\
  (forall q o' z', nth_error (rds n') o' = Some z' -> rq z' = Some q -> exists z, nth_error (rds n) o' = Some z /\ rq z = Some q) /\
  (forall q k o' z g, nth_error (rds n) o' = Some z -> rq z = Some q -> nth_error (qs n) q = Some k -> qlive k = true -> qconn k = true -> In g (rfs z) ->
     (o' <> o \/ g <> f) -> exists z' k', nth_error (rds n') o' = Some z' /\ rq z' = Some q /\ In g (rfs z') /\
       nth_error (qs n') q = Some k' /\ qlive k' = true /\ qconn k' = true).
Proof.
  intros W Ho H. unfold readerDisconnect in H. unfold getR in H. rewrite Ho in H. cbn [bind] in H.
  assert (L : o < length (rds n)) by (apply nth_error_Some; congruence).
  destruct (existsb (Z.eqb f) (rfs x)) eqn:Ef; cbn [negb] in H.
  2:{ inversion H; subst. split; [reflexivity|]. split; [|split].
      - intros q k A B. exists k. split; [exact A|]. split; [exact B|].
        destruct (rq x) as [q1|]; [|left; split; [discriminate|reflexivity]].
        destruct (Nat.eq_dec q1 q) as [->|Hn]; [right; auto|left; split; [congruence|reflexivity]].
      - eauto.
      - intros q k o' z g A B C D E F _. exists z, k. auto 10. }
  set (fl := filter (fun y => negb (y =? f)%Z) (rfs x)) in *.
  apply bind_ok in H. destruct H as (n2 & E2 & H).
  (* the middle state *)
  assert (X2 : fs n2 = fs n /\ rds n2 = upd (rds n) o (mkR (rq x) fl) /\
     (forall q k', nth_error (qs n2) q = Some k' -> qconn k' = true -> exists k, nth_error (qs n) q = Some k /\ qconn k = true /\
        ((rq x <> Some q /\ qrd k' = qrd k) \/ (rq x = Some q /\ qrd k' = dropReader f (qrd k)))) /\
     (forall q k, nth_error (qs n) q = Some k -> qlive k = true -> qconn k = true -> exists k', nth_error (qs n2) q = Some k' /\ qlive k' = true /\ qconn k' = true)).
  { destruct (rq x) as [q0|] eqn:Eq.
    - apply bind_ok in E2. destruct E2 as (k0 & Ek & E2). unfold getQ in Ek. cbn [qs putR] in Ek.
      destruct (nth_error (qs n) q0) as [k1|] eqn:Ek1; [|discriminate]. destruct (qlive k1); [|discriminate].
      inversion Ek; subst k1. clear Ek. inversion E2; subst n2. clear E2. cbn [fs rds qs putQ putR].
      assert (Lq : q0 < length (qs n)) by (apply nth_error_Some; congruence).
      repeat (split; [reflexivity|]). split.
      + intros q k' A B. destruct (Nat.eq_dec q0 q) as [<-|Hq].
        * rewrite nth_error_upd_eq in A by exact Lq. inversion A; subst k'. cbn in B. exists k0. auto.
        * rewrite nth_error_upd_neq in A by exact Hq. exists k'. split; [exact A|]. split; [exact B|]. left. split; [congruence|reflexivity].
      + intros q k A B C. destruct (Nat.eq_dec q0 q) as [<-|Hq].
        * rewrite nth_error_upd_eq by exact Lq. eexists. split; [reflexivity|]. cbn. split; [reflexivity|congruence].
        * rewrite nth_error_upd_neq by exact Hq. eauto.
    - inversion E2; subst n2. cbn [fs rds qs putR]. repeat (split; [reflexivity|]). split; [|eauto].
      intros q k' A B. exists k'. split; [exact A|]. split; [exact B|]. left. split; [discriminate|reflexivity]. }
  destruct X2 as (F2 & D2 & Q2 & P2).
  assert (Z2 : forall q o' z', nth_error (rds n2) o' = Some z' -> rq z' = Some q -> exists z, nth_error (rds n) o' = Some z /\ rq z = Some q).
  { intros q o' z' A B. rewrite D2 in A. destruct (Nat.eq_dec o o') as [<-|Hn].
    - rewrite nth_error_upd_eq in A by exact L. inversion A; subst z'. cbn in B. eauto.
    - rewrite nth_error_upd_neq in A by exact Hn. eauto. }
  assert (Y2 : forall q k o' z g, nth_error (rds n) o' = Some z -> rq z = Some q -> nth_error (qs n) q = Some k -> qlive k = true -> qconn k = true -> In g (rfs z) ->
     (o' <> o \/ g <> f) -> exists z', nth_error (rds n2) o' = Some z' /\ rq z' = Some q /\ In g (rfs z')).
  { intros q k o' z g A B C D E F G. rewrite D2. destruct (Nat.eq_dec o o') as [<-|Hn].
    - rewrite nth_error_upd_eq by exact L. eexists. split; [reflexivity|]. rewrite Ho in A. inversion A; subst z. cbn. split; [exact B|].
      apply rm_in. split; [exact F|]. destruct G; [congruence|assumption].
    - rewrite nth_error_upd_neq by exact Hn. eauto. }
  destruct fl as [|a t] eqn:Efl.
  - apply bind_ok in H. destruct H as ([n3 b3] & E3 & H). inversion H; subst n' b3. clear H.
    destruct (drop_track n2 (rq x) n3 b E3) as (F3 & D3 & Q3 & P3). cbn [fs rds qs putR].
    split; [congruence|]. split; [|split].
    + intros q k' A B. destruct (Q3 q k' A B) as [A1 _]. destruct (Q2 q k' A1 B) as (k & K1 & K2 & K3). exists k. auto.
    + intros q o' z' A B. destruct (Nat.eq_dec o o') as [<-|Hn].
      * rewrite nth_error_upd_eq in A by (rewrite D3, D2, upd_length; exact L). inversion A; subst. discriminate.
      * rewrite nth_error_upd_neq in A by exact Hn. rewrite D3 in A. apply (Z2 q o' z' A B).
    + intros q k o' z g A B C D E F G.
      assert (Hoo : o' <> o).
      { intros ->. rewrite Ho in A. inversion A; subst z. destruct G as [G|G]; [congruence|].
        assert (Hi : In g (filter (fun y => negb (y =? f)%Z) (rfs x))) by (apply rm_in; auto). fold fl in Hi. rewrite Efl in Hi. exact Hi. }
      assert (Hq : rq x <> Some q).
      { intros Eq. apply Hoo. apply (rptrs_uniq q (rds n) o' o z x); auto. apply (one_reader n q k W C). }
      destruct (Y2 q k o' z g A B C D E F G) as (z' & V1 & V2 & V3). destruct (P2 q k C D E) as (k' & U1 & U2 & U3).
      exists z', k'. rewrite nth_error_upd_neq by congruence. rewrite D3. split; [exact V1|]. split; [exact V2|]. split; [exact V3|].
      split; [apply P3; assumption|]. auto.
  - inversion H; subst n' b. split; [exact F2|]. split; [|split; [exact Z2|]].
    + intros q k' A B. destruct (Q2 q k' A B) as (k & K1 & K2 & K3). exists k. auto.
    + intros q k o' z g A B C D E F G. destruct (Y2 q k o' z g A B C D E F G) as (z' & V1 & V2 & V3). destruct (P2 q k C D E) as (k' & U1 & U2 & U3).
      exists z', k'. auto 10.
Qed.

Lemma nodup_fst (l : list (Z * Z)) a b c : NoDup (map fst l) -> In (a, b) l -> In (a, c) l -> b = c.
Proof.
  induction l as [|[x y] t IH]; cbn; intros N; [intros []|]. inversion N as [|? ? N1 N2]; subst.
  intros [E|H1] [E2|H2].
  - congruence.
  - inversion E; subst. exfalso. apply N1. apply in_map_iff. exists (a, c). auto.
  - inversion E2; subst. exfalso. apply N1. apply in_map_iff. exists (a, b). auto.
  - apply IH; assumption.
Qed.

(** Taking filter f off the reader of its input r, then forgetting the input. *)
Lemma mi_disc_one n o f r n' b x : WF n -> RI n -> MI n -> mfind f (fs n) = Some x -> mfind r (frd x) = Some (Some o) ->
  readerDisconnect n o f = Ok (n', b) -> MIx n' (fun g r' => g = f /\ r' = r).
Proof.
  intros W R M Hf Hr H. pose proof (wf_rids n W f x r o Hf Hr) as L. destruct (nth_error (rds n) o) as [u|] eqn:Ho.
  2:{ apply nth_error_None in Ho. lia. }
  destruct (disc_track n o f n' b u W Ho H) as (F & Q & Z2 & _).
  intros q k' g y r' o' z' A B C D E G. destruct (Q q k' A B) as (k & K1 & K2 & K3). destruct (Z2 q o' z' E G) as (z & E1 & G1).
  rewrite F in C. destruct (M q k g y r' o' z K1 K2 C D E1 G1) as [[]|Hin].
  destruct K3 as [[_ ->]|[Hq K3]]; [right; exact Hin|]. destruct (existsb (Z.eqb f) (rfs u)); rewrite K3; [|right; exact Hin].
  pose proof (ri_nd _ _ _ (R q k K1 K2)) as N. destruct (Z.eq_dec g f) as [->|Hg].
  - left. split; [reflexivity|]. destruct (M q k f x r o u K1 K2 Hf Hr Ho Hq) as [[]|Hin2]. apply (nodup_fst _ f _ _ N Hin Hin2).
  - right. apply dropReader_in; auto.
Qed.

(** The same, when exceptions for the whole filter are in place. *)
Lemma mi_disc_all n o f n' b : WF n -> RI n -> o < length (rds n) -> MIx n (fun g _ => g = f) -> readerDisconnect n o f = Ok (n', b) -> MIx n' (fun g _ => g = f).
Proof.
  intros W R L M H. destruct (nth_error (rds n) o) as [u|] eqn:Ho; [|apply nth_error_None in Ho; lia].
  destruct (disc_track n o f n' b u W Ho H) as (F & Q & Z2 & _).
  intros q k' g y r' o' z' A B C D E G. destruct (Q q k' A B) as (k & K1 & K2 & K3). destruct (Z2 q o' z' E G) as (z & E1 & G1).
  rewrite F in C. destruct (M q k g y r' o' z K1 K2 C D E1 G1) as [HX|Hin]; [left; exact HX|].
  destruct K3 as [[_ ->]|[Hq K3]]; [right; exact Hin|]. destruct (existsb (Z.eqb f) (rfs u)); rewrite K3; [|right; exact Hin].
  destruct (Z.eq_dec g f) as [->|Hg]; [left; reflexivity|]. right. apply dropReader_in; [apply (ri_nd _ _ _ (R q k K1 K2))|auto].
Qed.

Lemma mi_release n p n' X : MIx n X -> releaseReader n p = Ok n' -> MIx n' X.
Proof.
  intros M H. destruct p as [o|]; cbn [releaseReader] in H; [|inversion H; subst; exact M].
  destruct (referenced n o); [inversion H; subst; exact M|].
  apply bind_ok in H. destruct H as (x & E & H). unfold getR in E. destruct (nth_error (rds n) o) as [x'|] eqn:Ho; [|discriminate].
  inversion E; subst x'. apply bind_ok in H. destruct H as ([n1 b] & E1 & H). inversion H; subst n'.
  destruct (drop_track n (rq x) n1 b E1) as (F1 & D1 & Q1 & _). apply (mi_less n _ X X M); cbn [fs rds qs putR].
  - intros q k A B. destruct (Q1 q k A B). eauto.
  - intros q o' z' A B. rewrite D1 in A. destruct (Nat.eq_dec o o') as [<-|Hn].
    + rewrite nth_error_upd_eq in A by (apply nth_error_Some; congruence). inversion A; subst. discriminate.
    + rewrite nth_error_upd_neq in A by exact Hn. eauto.
  - intros g y r o' A B. rewrite F1 in A. eauto.
  - auto.
Qed.

Lemma mi_setRd_less n f x m (X Y : Z -> Z -> Prop) : MIx n X -> mfind f (fs n) = Some x -> (forall r o, mfind r m = Some (Some o) -> mfind r (frd x) = Some (Some o)) ->
  (forall g r, X g r -> (g = f -> mfind r m <> None) -> Y g r) -> MIx (putF n f (setRd x m)) Y.
Proof.
  intros M Hf Hm HX. apply (mi_less n _ X Y M); cbn [fs rds qs putF].
  - eauto.
  - eauto.
  - intros g y r o A B. rewrite mfind_mset in A. destruct (Z.eqb_spec g f) as [->|]; [|eauto]. inversion A; subst. cbn in B. eauto.
  - intros g r y A B C. apply (HX g r C). intros ->. rewrite mfind_mset_eq in A. inversion A; subst. exact B.
Qed.
Lemma mi_setWr n f x m X : MIx n X -> mfind f (fs n) = Some x -> MIx (putF n f (setWr x m)) X.
Proof.
  intros M Hf. apply (mi_less n _ X X M); cbn [fs rds qs putF].
  - eauto.
  - eauto.
  - intros g y r o A B. rewrite mfind_mset in A. destruct (Z.eqb_spec g f) as [->|]; [|eauto]. inversion A; subst. eauto.
  - auto.
Qed.
Lemma mi_drop n p n' b X : MIx n X -> dropQueue n p = Ok (n', b) -> MIx n' X.
Proof.
  intros M H. destruct (drop_track n p n' b H) as (F1 & D1 & Q1 & _). apply (mi_less n _ X X M).
  - intros q k A B. destruct (Q1 q k A B). eauto.
  - rewrite D1. eauto.
  - rewrite F1. eauto.
  - auto.
Qed.
Lemma mi_eraseWriter n f w n' : MI n -> eraseWriter n f w = Ok n' -> MI n'.
Proof.
  intros M H. unfold eraseWriter in H. apply bind_ok in H. destruct H as (x & E & H). apply getF_ok in E.
  destruct (mfind w (fwr x)) as [p|]; [|inversion H; subst; exact M].
  apply bind_ok in H. destruct H as ([n1 b] & E1 & H). inversion H; subst n'.
  apply mi_setWr; [apply (mi_drop n p n1 b _ M E1)|]. destruct (drop_track n p n1 b E1) as (F & _). congruence.
Qed.
Lemma mi_deleteWriter n e f w n' b : MI n -> deleteWriter n e f w = Ok (n', b) -> MI n'.
Proof.
  intros M H. unfold deleteWriter in H. apply bind_ok in H. destruct H as (x & E & H).
  destruct (mfind w (fwr x)) as [p|]; [|inversion H; subst; exact M].
  apply bind_ok in H. destruct H as (n1 & E1 & H). inversion H; subst. apply (mi_eraseWriter n f w n' M E1).
Qed.

(** deleteReader, from a state where input r itself may be unlisted. *)
Lemma mi_deleteReader n e f r n' b : WF n -> RI n ->
  (MI n \/ (MIx n (fun g r' => g = f /\ r' = r) /\ forall x o z, mfind f (fs n) = Some x -> mfind r (frd x) = Some (Some o) -> nth_error (rds n) o = Some z -> ~ In f (rfs z)) /\ (exists x o, mfind f (fs n) = Some x /\ mfind r (frd x) = Some (Some o))) ->
  deleteReader n e f r = Ok (n', b) -> MI n'.
Proof.
  intros W R M H. unfold deleteReader in H. apply bind_ok in H. destruct H as (x & E & H). apply getF_ok in E.
  destruct (mfind r (frd x)) as [[o|]|] eqn:Er; [|discriminate|].
  2:{ inversion H; subst. destruct M as [M|(_ & (x' & o & A & B))]; [exact M|congruence]. }
  apply bind_ok in H. destruct H as ([n1 b1] & E1 & H). apply bind_ok in H. destruct H as (n2 & E2 & H). inversion H; subst n2.
  assert (F1 : fs n1 = fs n /\ MIx n1 (fun g r' => g = f /\ r' = r)).
  { destruct M as [M|((M & Hn) & _)].
    - split; [|apply (mi_disc_one n o f r n1 b1 x W R M E Er E1)].
      destruct (readerDisconnect_ok n o f W (wf_rids n W f x r o E Er)) as (n1' & b1' & E1' & _ & F & _). rewrite E1 in E1'. inversion E1'; subst. exact F.
    - unfold readerDisconnect in E1. apply bind_ok in E1. destruct E1 as (z & Ez & E1). unfold getR in Ez.
      destruct (nth_error (rds n) o) as [z'|] eqn:Ho; [|discriminate]. inversion Ez; subst z'.
      destruct (existsb (Z.eqb f) (rfs z)) eqn:Ef; cbn [negb] in E1.
      + exfalso. apply existsb_exists in Ef. destruct Ef as (a & A & B). apply Z.eqb_eq in B. subst a. apply (Hn x o z E Er Ho A).
      + inversion E1; subst. auto. }
  destruct F1 as [F1 M1]. refine (mi_release _ _ _ _ _ E2). refine (mi_setRd_less n1 f x _ _ none2 M1 _ _ _).
  - congruence.
  - intros r' o'. rewrite mfind_mdel by apply (proj2 (wf_sorted n W) f x E). destruct (r' =? r)%Z; [discriminate|auto].
  - intros g r' [-> ->] Hg. specialize (Hg eq_refl). rewrite mfind_mdel in Hg by apply (proj2 (wf_sorted n W) f x E). rewrite Z.eqb_refl in Hg. contradiction.
Qed.
Lemma mi_disconnectReader n e f r n' b : WF n -> RI n -> MI n -> disconnectReader n e f r = Ok (n', b) -> MI n'.
Proof.
  intros W R M H. unfold disconnectReader in H. apply bind_ok in H. destruct H as (x & E & H). apply getF_ok in E.
  destruct (mfind r (frd x)) as [[o|]|] eqn:Er; [|discriminate|inversion H; subst; exact M].
  apply bind_ok in H. destruct H as ([n1 b1] & E1 & H).
  pose proof (wf_rids n W f x r o E Er) as L. destruct (nth_error (rds n) o) as [u|] eqn:Ho; [|apply nth_error_None in Ho; lia].
  destruct (disc_track n o f n1 b1 u W Ho E1) as (F & Q & Z2 & _).
  destruct b1.
  - destruct (ri_disc n o f n1 true W R E1) as (R1 & F1 & X1 & _).
    destruct (readerDisconnect_ok n o f W L) as (n1' & b1' & E1' & W1 & _). rewrite E1 in E1'. inversion E1'; subst n1' b1'.
    refine (mi_deleteReader n1 e f r n' b W1 R1 _ H). right. split; [split|].
    + apply (mi_disc_one n o f r n1 true x W R M E Er E1).
    + intros x' o' z A B C. assert (x' = x) by congruence. subst. assert (o' = o) by congruence. subst. apply (X1 z C).
    + exists x, o. split; [congruence|exact Er].
  - inversion H; subst n' b. apply (mi_less n _ none2 none2 M).
    + intros q k' A B. destruct (Q q k' A B) as (k & K1 & K2 & K3). exists k. split; [exact K1|]. split; [exact K2|].
      destruct K3 as [[_ K3]|[Hq K3]]; [congruence|]. destruct (existsb (Z.eqb f) (rfs u)) eqn:Ef; [|congruence]. exfalso.
      unfold readerDisconnect in E1. unfold getR in E1. rewrite Ho in E1. cbn [bind] in E1. rewrite Ef in E1. cbn [negb] in E1. rewrite Hq in E1.
      apply bind_ok in E1. destruct E1 as (n2 & E2 & E1). destruct (filter _ _); [|discriminate].
      apply bind_ok in E1. destruct E1 as ([n3 b3] & E3 & E1). inversion E1; subst b3. cbn [dropQueue] in E3.
      apply bind_ok in E3. destruct E3 as (k3 & _ & E3). destruct (qconn k3); discriminate.
    + exact Z2.
    + rewrite F. eauto.
    + auto.
Qed.

Lemma mi_connect n e f w g r n' b : WF n -> MI n -> connect n e f w g r = Ok (n', b) -> MI n'.
Proof.
  intros W M H. unfold connect in H. destruct (Z.eqb_spec f g) as [|Hfg]; [discriminate|].
  apply bind_ok in H. destruct H as (y & Hy & H). apply getF_ok in Hy.
  apply bind_ok in H. destruct H as (busy & _ & H). destruct busy; [inversion H; subst; exact M|].
  apply bind_ok in H. destruct H as ([n1 b1] & H1 & H).
  destruct (mfind f (fs n)) as [x|] eqn:Hf.
  2:{ unfold setWriter, getF in H1. rewrite Hf in H1. discriminate. }
  destruct (setWriter_ok n e f w x W Hf) as (b2 & Ew & Hw). rewrite Ew in H1. inversion H1; subst n1 b1. clear H1 Ew.
  destruct b2; cbn [negb] in H; [|inversion H; subst; exact M].
  specialize (Hw eq_refl).
  set (x1 := setWr x (mset w None (fwr x))) in *. set (n1 := putF n f x1) in *.
  assert (M1 : MI n1) by (apply mi_setWr; assumption).
  assert (Hf1 : mfind f (fs n1) = Some x1) by (cbn; apply mfind_mset_eq).
  assert (Hg1 : mfind g (fs n1) = Some y) by (cbn; rewrite mfind_mset_neq by congruence; exact Hy).
  destruct (aq e f); cbn [negb] in H.
  2:{ apply bind_ok in H. destruct H as ([n2 b2] & E2 & H). inversion H; subst. apply (mi_deleteWriter n1 e f w n' b2 M1 E2). }
  set (qn := mkQ true false (f, w) [(g, r)]) in *. set (n2 := mkNet (fs n1) (rds n1) (qs n1 ++ [qn])) in *.
  assert (QQ : forall q k, nth_error (qs n1 ++ [qn]) q = Some k -> qconn k = true -> nth_error (qs n1) q = Some k).
  { intros q k A B. destruct (lt_dec q (length (qs n1))) as [L|L]; [rewrite nth_error_app1 in A by exact L; exact A|].
    rewrite nth_error_app2 in A by lia. destruct (q - length (qs n1)) as [|[|]]; cbn in A; try discriminate. inversion A; subst. discriminate. }
  assert (M2 : MI n2).
  { apply (mi_less n1 _ none2 none2 M1); [|eauto|eauto|auto]. intros q k A B. exists k. split; [apply (QQ q k A B)|auto]. }
  apply bind_ok in H. destruct H as ([n3 oo] & H3 & H). unfold setReader in H3. unfold getF in H3. cbn [fs n2] in H3.
  rewrite Hg1 in H3. cbn [bind] in H3.
  destruct ((fmaxR y <=? length (frd y)) || mmem r (frd y)) eqn:Efull.
  { inversion H3; subst n3 oo. apply bind_ok in H. destruct H as ([n4 b4] & E4 & H). inversion H; subst.
    apply (mi_deleteWriter n2 e f w n' b4 M2 E4). }
  destruct (rcfg e g r).
  2:{ inversion H3; subst n3 oo. apply bind_ok in H. destruct H as ([n4 b4] & E4 & H). inversion H; subst.
      refine (mi_deleteWriter _ e f w n' b4 _ E4). refine (mi_setRd_less n2 g y _ none2 none2 M2 Hg1 _ _).
      - intros r' o'. rewrite mfind_mset. destruct (r' =? r)%Z; [discriminate|auto].
      - auto. }
  injection H3 as E3 Eoo. subst oo. subst n3.
  apply bind_ok in H. destruct H as (x3 & Hx3 & H). apply bind_ok in H. destruct H as (k0 & Hk0 & H).
  set (o := length (rds n)) in *. set (q := length (qs n)) in *.
  assert (Ex3 : x3 = x1).
  { apply getF_ok in Hx3. change (mfind f (mset g (setRd y (mset r (Some o) (frd y))) (fs n1)) = Some x3) in Hx3.
    rewrite mfind_mset_neq in Hx3 by congruence. congruence. }
  subst x3. unfold getQ in Hk0.
  change (match nth_error (qs n ++ [qn]) q with Some x0 => if qlive x0 then Ok x0 else Bad UseAfterFree | None => Bad UseAfterFree end = Ok k0) in Hk0.
  assert (Enq : nth_error (qs n ++ [qn]) q = Some qn) by (unfold q; rewrite nth_error_app2 by lia; rewrite Nat.sub_diag; reflexivity).
  rewrite Enq in Hk0. cbn [qlive qn] in Hk0. inversion Hk0; subst k0. clear Hk0. inversion H; subst n' b. clear H. cbn [qwr qrd qn].
  assert (Lq : q < length (qs n ++ [qn])) by (apply nth_error_Some; congruence).
  assert (Lo : o < length (rds n ++ [mkR None []])) by (rewrite app_length; cbn; unfold o; lia).
  assert (HW0 : rptrs q (rds n) = 0).
  { pose proof (wf_heap n W q) as Hq. cbn beta in Hq. assert (E : nth_error (qs n) q = None) by (apply nth_error_None; unfold q; lia).
    rewrite E in Hq. unfold qok in Hq. lia. }
  (* an input of the final state is the new one or an old one *)
  intros q1 k1 g1 y1 r1 o1 z1 A B C D E F.
  change (nth_error (upd (qs n ++ [qn]) q (mkQ true true (f, w) [(g, r)])) q1 = Some k1) in A.
  change (mfind g1 (mset f (setWr x1 (mset w (Some q) (fwr x1))) (mset g (setRd y (mset r (Some o) (frd y))) (mset f x1 (fs n)))) = Some y1) in C.
  change (nth_error (upd (rds n ++ [mkR None []]) o (mkR (Some q) [g])) o1 = Some z1) in E.
  assert (OLD : (g1 = g /\ r1 = r /\ o1 = o) \/ exists y0, mfind g1 (fs n) = Some y0 /\ mfind r1 (frd y0) = Some (Some o1)).
  { rewrite !mfind_mset in C. destruct (Z.eqb_spec g1 f) as [->|Hn]; [right; inversion C; subst y1; cbn in D; eauto|].
    destruct (Z.eqb_spec g1 g) as [->|Hn2]; [|right; eauto]. inversion C; subst y1. cbn [frd setRd] in D. rewrite mfind_mset in D.
    destruct (Z.eqb_spec r1 r) as [->|]; [left; inversion D; subst; auto|right; eauto]. }
  destruct (Nat.eq_dec o o1) as [<-|Ho].
  - rewrite nth_error_upd_eq in E by exact Lo. inversion E; subst z1. cbn [rq] in F. injection F as F. subst q1.
    rewrite nth_error_upd_eq in A by exact Lq. inversion A; subst k1. cbn [qrd].
    destruct OLD as [(-> & -> & _)|(y0 & Y1 & Y2)]; [right; left; reflexivity|].
    pose proof (wf_rids n W g1 y0 r1 o Y1 Y2) as L. unfold o in L. lia.
  - rewrite nth_error_upd_neq in E by exact Ho. destruct (lt_dec o1 (length (rds n))) as [L|L].
    2:{ rewrite nth_error_app2 in E by lia. destruct (o1 - length (rds n)) as [|[|]]; cbn in E; try discriminate. inversion E; subst. discriminate. }
    rewrite nth_error_app1 in E by exact L. destruct OLD as [(_ & _ & ->)|(y0 & Y1 & Y2)]; [contradiction|].
    destruct (Nat.eq_dec q q1) as [<-|Hq].
    { pose proof (rptrs_in q _ _ _ E F). lia. }
    rewrite nth_error_upd_neq in A by exact Hq. apply (QQ q1 k1) in A; [|exact B]. apply (M q1 k1 g1 y0 r1 o1 z1 A B Y1 Y2 E F).
Qed.

Lemma mi_share n e f r g s n' b : WF n -> RI n -> MI n -> shareReader n e f r g s = Ok (n', b) ->
  (forall x o z q k, mfind f (fs n) = Some x -> mfind r (frd x) = Some (Some o) -> nth_error (rds n) o = Some z ->
     rq z = Some q -> nth_error (qs n) q = Some k -> qconn k = true -> ~ In g (map fst (qrd k))) -> MI n'.
Proof.
  intros W R M H Hnl. unfold shareReader in H. destruct (Z.eqb_spec f g) as [|Hfg]; [inversion H; subst; exact M|].
  apply bind_ok in H. destruct H as (x & Hx & H). apply getF_ok in Hx.
  destruct (mfind r (frd x)) as [p|] eqn:Hr; [|inversion H; subst; exact M].
  apply bind_ok in H. destruct H as (c & Hc & H). destruct c; cbn [negb] in H; [|inversion H; subst; exact M].
  apply bind_ok in H. destruct H as (d & Hd & H). destruct d; [inversion H; subst; exact M|].
  destruct (rcfg e g s); cbn [negb] in H; [|inversion H; subst; exact M].
  apply bind_ok in H. destruct H as (y & Hg & H). apply getF_ok in Hg. apply bind_ok in H. destruct H as (n1 & H1 & H).
  destruct p as [o|]; [|discriminate].
  cbn [readerConnected] in Hc. apply bind_ok in Hc. destruct Hc as (z & Hz & Hc). unfold getR in Hz.
  destruct (nth_error (rds n) o) as [z'|] eqn:Eo; [|discriminate]. inversion Hz; subst z'. clear Hz.
  destruct (rq z) as [q|] eqn:Eq; cbn [ptrConnected] in Hc; [|discriminate].
  apply bind_ok in Hc. destruct Hc as (k & Hk & Hc). unfold getQ in Hk. destruct (nth_error (qs n) q) as [k'|] eqn:Ek; [|discriminate].
  destruct (qlive k') eqn:El; [|discriminate]. inversion Hk; subst k'. clear Hk. assert (Ec : qconn k = true) by congruence. clear Hc.
  assert (Hold : forall o x0 q k, mfind s (frd y) = Some (Some o) -> nth_error (rds n) o = Some x0 -> rq x0 = Some q ->
            nth_error (qs n) q = Some k -> qconn k = false).
  { intros o0 x0 q0 k0 A B C D. unfold isRConnected, getF in Hd. rewrite Hg in Hd. cbn [bind] in Hd. rewrite A in Hd.
    cbn [readerConnected] in Hd. unfold getR in Hd. rewrite B in Hd. cbn [bind] in Hd. rewrite C in Hd. cbn [ptrConnected] in Hd.
    unfold getQ in Hd. rewrite D in Hd. destruct (qlive k0); [|discriminate]. cbn in Hd. inversion Hd. reflexivity. }
  assert (M0 : MIx (putF n g (setRd y (mset s (Some o) (frd y)))) (fun a b => a = g /\ b = s)).
  { intros q1 k1 g1 y1 r1 o1 z1 A B C D E F. cbn [fs rds qs putF] in *. rewrite mfind_mset in C. destruct (Z.eqb_spec g1 g) as [->|Hn].
    - inversion C; subst y1. cbn [frd setRd] in D. rewrite mfind_mset in D. destruct (Z.eqb_spec r1 s) as [->|]; [left; auto|right].
      destruct (M q1 k1 g y r1 o1 z1 A B Hg D E F) as [[]|Hi]; exact Hi.
    - right. destruct (M q1 k1 g1 y1 r1 o1 z1 A B C D E F) as [[]|Hi]; exact Hi. }
  pose proof (mi_release _ _ _ _ M0 H1) as M1.
  refine ((fun Hh => _) (fun Hp => releaseReader_keeps _ _ n1 Hp H1)). destruct Hh as [F1 K1].
  { intros o0 x0 q0 k0 A B C D. cbn [putF rds qs] in *. destruct (mfind s (frd y)) as [z0|] eqn:Es; [|discriminate]. subst z0.
    apply (Hold o0 x0 q0 k0 eq_refl B C D). }
  cbn [putF fs rds qs] in F1, K1. destruct (K1 o z q k Eo Eq Ek Ec) as [Eo1 Ek1].
  apply bind_ok in H. destruct H as (z1 & Hz1 & H). unfold getR in Hz1. rewrite Eo1 in Hz1. inversion Hz1; subst z1. clear Hz1.
  rewrite Eq in H. apply bind_ok in H. destruct H as (k1 & Hk1 & H). unfold getQ in Hk1. rewrite Ek1, El in Hk1. inversion Hk1; subst k1. clear Hk1.
  rewrite Ec in H. cbn [andb] in H.
  assert (Ng := Hnl x o z q k Hx Hr Eo Eq Ek Ec).
  destruct (existsb (fun ab : Z * Z => (fst ab =? g)%Z) (qrd k)) eqn:Ee; cbn [negb] in H.
  { exfalso. apply existsb_exists in Ee. destruct Ee as (ab & A & B). apply Z.eqb_eq in B. apply Ng. apply in_map_iff. eauto. }
  inversion H; subst n' b. clear H.
  assert (Lq : q < length (qs n1)) by (apply nth_error_Some; congruence).
  assert (Lo : o < length (rds n1)) by (apply nth_error_Some; congruence).
  intros q1 k1 g1 y1 r1 o1 z1 A B C D E F. cbn [fs rds qs putR putQ] in *.
  assert (Hs : exists z0, nth_error (rds n1) o1 = Some z0 /\ rq z0 = Some q1).
  { destruct (Nat.eq_dec o o1) as [<-|Hn]; [|rewrite nth_error_upd_neq in E by exact Hn; eauto].
    rewrite nth_error_upd_eq in E by exact Lo. inversion E; subst z1. cbn in F. exists z. split; [exact Eo1|congruence]. }
  destruct Hs as (z0 & Z1 & Z2).
  assert (Hlist : (g1 = g /\ r1 = s) -> q1 = q).
  { intros [-> ->]. rewrite F1, mfind_mset_eq in C. inversion C; subst y1. cbn [frd setRd] in D. rewrite mfind_mset_eq in D.
    inversion D; subst o1. congruence. }
  destruct (Nat.eq_dec q q1) as [<-|Hq].
  - rewrite nth_error_upd_eq in A by exact Lq. inversion A; subst k1. cbn [qrd]. right. apply in_or_app.
    destruct (M1 q k g1 y1 r1 o1 z0 Ek1 Ec C D Z1 Z2) as [[-> ->]|Hi]; [right; left; reflexivity|left; exact Hi].
  - rewrite nth_error_upd_neq in A by exact Hq. destruct (M1 q1 k1 g1 y1 r1 o1 z0 A B C D Z1 Z2) as [X|Hi]; [exfalso; apply Hq; symmetry; apply Hlist, X|right; exact Hi].
Qed.

Lemma mi_group n e org dst ow dr n' b : WF n -> RI n -> MI n -> handleGrouping n e org dst ow dr = Ok (n', b) -> MI n'.
Proof.
  intros W R M H. unfold handleGrouping in H. apply bind_ok in H. destruct H as (x & Hx & H). apply getF_ok in Hx.
  destruct (mfind ow (fwr x)) as [p|] eqn:Hw; [|inversion H; subst; exact M].
  apply bind_ok in H. destruct H as (c & Hc & H). destruct c; cbn [negb] in H; [|inversion H; subst; exact M].
  destruct p as [q|]; [|discriminate Hc]. cbn [ptrConnected] in Hc. apply bind_ok in Hc. destruct Hc as (k & Hk & Hc).
  rewrite Hk in H. cbn [bind] in H. assert (Ec : qconn k = true) by congruence. clear Hc.
  unfold getQ in Hk. destruct (nth_error (qs n) q) as [k'|] eqn:Ek; [|discriminate]. destruct (qlive k') eqn:El; [|discriminate].
  inversion Hk; subst k'. clear Hk.
  apply bind_ok in H. destruct H as (v & Hv & H). destruct v; cbn [negb] in H; [|inversion H; subst; exact M].
  assert (Nd : ~ In dst (map fst (qrd k))).
  { unfold validCData in Hv. destruct (negb (org =? fst (qwr k))%Z); [discriminate|]. apply bind_ok in Hv. destruct Hv as (v & Hv & Hv2).
    destruct v; [|discriminate]. apply (readersValid_notin n dst _ Hv). }
  pose proof (R q k Ek Ec) as [Q1 Q2 Q3 Q4 Q5].
  destruct (qrd k) as [|[rf rr] t] eqn:Erd; [discriminate|].
  apply (mi_share n e rf rr dst dr n' b W R M H). intros x' o z q' k' C1 C2 C3 C4 C5 C6.
  destruct (Q4 rf rr (or_introl eq_refl)) as (_ & y & o' & z' & D1 & D2 & D3 & D4 & D5).
  assert (E1 : x' = y) by congruence. subst x'. assert (E2 : o = o') by congruence. subst o'. assert (E3 : z = z') by congruence. subst z'.
  assert (E4 : q' = q) by congruence. subst q'. assert (E5 : k' = k) by congruence. subst k'. rewrite Erd. exact Nd.
Qed.

Lemma mi_chain e : forall t m n n' b, WF n -> MI n -> (forall a, In a (m :: t) -> mfind a (fs n) <> None) ->
  chain n e (m :: t) = Ok (n', b) -> MI n'.
Proof.
  induction t as [|c t IH]; intros m n n' b W M Hl H; [cbn in H; inversion H; subst; exact M|].
  change (chain n e (m :: c :: t)) with
      (bind (generateWriterID n e m) (fun w => bind (generateReaderID n e c) (fun r =>
         bind (connect n e m w c r) (fun '(n1, ok) => if ok : bool then chain n1 e (c :: t) else Ok (n1, false))))) in H.
  apply bind_ok in H. destruct H as (w0 & _ & H). apply bind_ok in H. destruct H as (r0 & Er & H).
  apply bind_ok in H. destruct H as ([n1 ok] & E1 & H). pose proof (mi_connect _ _ _ _ _ _ _ _ W M E1) as M1.
  pose proof (connect_safe n e m w0 c r0 W (Hl m (or_introl eq_refl)) (Hl c (or_intror (or_introl eq_refl)))) as S. rewrite E1 in S.
  cbn [safe fst] in S. destruct S as ((W1 & Sk1 & K1 & _) & _).
  destruct ok; [|inversion H; subst; exact M1]. apply (IH c n1 n' b W1 M1); [|exact H].
  intros a Ha. apply (present_skel n n1 a Sk1). apply Hl. right. exact Ha.
Qed.

Lemma mi_hop n e org ow g dr r n' b : WF n -> RI n -> MI n -> (0 <= r)%Z -> mfind org (fs n) <> None -> mfind g (fs n) <> None ->
  (do (n1, ok) <- connect n e org ow g r; if ok : bool then Ok (n1, true) else handleGrouping n1 e org g ow dr) = Ok (n', b) -> MI n'.
Proof.
  intros W R M R0 Ho Hg H. apply bind_ok in H. destruct H as ([n1 ok] & E1 & H).
  pose proof (ri_connect n e org ow g r n1 ok W R R0 E1) as R1. pose proof (mi_connect _ _ _ _ _ _ _ _ W M E1) as M1.
  pose proof (connect_safe n e org ow g r W Ho Hg) as S. rewrite E1 in S. cbn [safe fst] in S. destruct S as ((W1 & _) & _).
  destruct ok; [inversion H; subst; exact M1|]. apply (mi_group n1 e org g ow dr n' b W1 R1 M1 H).
Qed.
Lemma mi_connectPath n e pa n' b : WF n -> RI n -> MI n -> (forall f, names pa f -> mfind f (fs n) <> None) -> (0 <= pdr pa)%Z ->
  connectPath n e pa = Ok (n', b) -> MI n'.
Proof.
  intros W R M Hn D0 H. unfold connectPath in H. destruct (negb _); [inversion H; subst; exact M|].
  destruct (pmid pa) as [|m t] eqn:Em.
  - apply (mi_hop n e (porg pa) (pow pa) (pdst pa) (pdr pa) (pdr pa) n' b W R M D0); auto.
    { apply Hn. left. reflexivity. } { apply Hn. right. left. reflexivity. }
  - apply bind_ok in H. destruct H as (r & Er & H). apply bind_ok in H. destruct H as ([n1 ok] & E1 & H).
    apply bind_ok in H. destruct H as ([n2 ok2] & E2 & H).
    assert (Hm : mfind m (fs n) <> None) by (apply Hn; right; right; rewrite Em; left; reflexivity).
    assert (Ho : mfind (porg pa) (fs n) <> None) by (apply Hn; left; reflexivity).
    assert (E12 : (do (n1, ok) <- connect n e (porg pa) (pow pa) m r; if ok : bool then Ok (n1, true) else handleGrouping n1 e (porg pa) m (pow pa) DEFAULT_ID) = Ok (n2, ok2)).
    { rewrite E1. exact E2. }
    pose proof (mi_hop n e (porg pa) (pow pa) m DEFAULT_ID r n2 ok2 W R M (gen_nonneg _ _ _ _ Er) Ho Hm E12) as M2.
    pose proof (first_hop n e pa m DEFAULT_ID r W Ho Hm) as S. rewrite E12 in S. cbn [safe fst] in S. destruct S as (W2 & Sk2 & K2 & _).
    destruct ok2; cbn [negb] in H; [|inversion H; subst; exact M2].
    apply bind_ok in H. destruct H as ([n3 ok3] & E3 & H).
    assert (Hl : forall a, In a (m :: t) -> mfind a (fs n2) <> None).
    { intros a Ha. apply (present_skel n n2 a Sk2). apply Hn. right. right. rewrite Em. exact Ha. }
    pose proof (mi_chain e t m n2 n3 ok3 W2 M2 Hl E3) as M3.
    pose proof (chain_safe e (m :: t) n2 W2 Hl) as S. rewrite E3 in S. cbn [safe fst] in S. destruct S as (W3 & Sk3 & K3 & _).
    destruct ok3; cbn [negb] in H; [|inversion H; subst; exact M3].
    apply bind_ok in H. destruct H as (w & _ & H). apply (mi_connect _ _ _ _ _ _ _ _ W3 M3 H).
Qed.

(** ** Deleting a filter. *)
Lemma mi_dropReaders f : forall l n n', WF n -> RI n -> MIx n (fun g _ => g = f) -> (forall k o, In (k, Some o) l -> o < length (rds n)) ->
  dropReaders n f l = Ok n' -> MIx n' (fun g _ => g = f).
Proof.
  induction l as [|[k [o|]] t IH]; intros n n' W R M Hl H; cbn [dropReaders] in H.
  - inversion H; subst. exact M.
  - destruct (0 <=? k)%Z.
    + apply bind_ok in H. destruct H as ([n1 b] & E1 & H). destruct (ri_disc n o f n1 b W R E1) as (R1 & _).
      destruct (readerDisconnect_ok n o f W (Hl k o (or_introl eq_refl))) as (n1' & b' & E1' & W1 & _ & L1). rewrite E1 in E1'. inversion E1'; subst n1' b'.
      apply (IH n1 n' W1 R1 (mi_disc_all n o f n1 b W R (Hl k o (or_introl eq_refl)) M E1)); [|exact H].
      intros k' o' Hi. rewrite L1. apply (Hl k' o'). right. exact Hi.
    + apply (IH n n' W R M); [|exact H]. intros k' o' Hi. apply (Hl k' o'). right. exact Hi.
  - apply (IH n n' W R M); [|exact H]. intros k' o' Hi. apply (Hl k' o'). right. exact Hi.
Qed.
Lemma mi_clearReaders X : forall l n n', MIx n X -> clearReaders n l = Ok n' -> MIx n' X.
Proof.
  induction l as [|[k p] t IH]; intros n n' M H; cbn [clearReaders] in H; [inversion H; subst; exact M|].
  apply bind_ok in H. destruct H as (n1 & E1 & H). apply (IH n1 n' (mi_release n p n1 X M E1) H).
Qed.
Lemma mi_clearWriters f : forall ws n n', MI n -> clearWriters n f ws = Ok n' -> MI n'.
Proof.
  induction ws as [|w t IH]; intros n n' M H; cbn [clearWriters] in H; [inversion H; subst; exact M|].
  apply bind_ok in H. destruct H as (n1 & E1 & H). apply (IH n1 n' (mi_eraseWriter n f w n1 M E1) H).
Qed.
Lemma mi_destroy n f n' : WF n -> RI n -> MI n -> destroyFilter n f = Ok n' -> MI n'.
Proof.
  intros W R M H. unfold destroyFilter in H. apply bind_ok in H. destruct H as (x & Hf & H). apply getF_ok in Hf.
  assert (S := wf_sorted n W). destruct (proj2 S f x Hf) as [Sr Sw].
  assert (Hl : forall k o, In (k, Some o) (frd x) -> o < length (rds n)).
  { intros k o G. apply (wf_rids n W f x k o Hf). apply (In_mfind (frd x) None); assumption. }
  apply bind_ok in H. destruct H as (n1 & E1 & H).
  assert (M1 : MIx n1 (fun g _ => g = f)).
  { apply (mi_dropReaders f (frd x) n n1 W R); [|exact Hl|exact E1]. intros q k g y r o z A B C D E F.
    destruct (M q k g y r o z A B C D E F) as [[]|Hi]. right. exact Hi. }
  destruct (dropReaders_ok n f (frd x) W Hl) as (n1' & E1' & W1 & F1 & L1). rewrite E1 in E1'. inversion E1'; subst n1'. clear E1'.
  assert (M2 : MI (putF n1 f (setRd x []))).
  { refine (mi_setRd_less n1 f x [] _ none2 M1 _ _ _); [congruence|discriminate|]. intros g r -> G. specialize (G eq_refl). cbn in G. congruence. }
  apply bind_ok in H. destruct H as (n2 & E2 & H). pose proof (mi_clearReaders _ _ _ _ M2 E2) as M3.
  assert (W2 : WF (putF n1 f (setRd x []))).
  { apply wf_setRd; [exact W1|congruence|exact I|]. intros r o G. discriminate. }
  destruct (clearReaders_ok (putF n1 f (setRd x [])) (frd x) W2) as (n2' & E2' & W3 & F2 & _); [cbn; rewrite L1; exact Hl|].
  rewrite E2 in E2'. inversion E2'; subst n2'. clear E2'.
  assert (Hf2 : mfind f (fs n2) = Some (setRd x [])) by (rewrite F2; cbn; apply mfind_mset_eq).
  apply bind_ok in H. destruct H as (n3 & E3 & H). inversion H; subst n'. clear H.
  pose proof (mi_clearWriters f _ _ _ M3 E3) as M4.
  destruct (clearWriters_ok f (fwr x) n2 (setRd x []) W3 Hf2 eq_refl) as (n3' & E3' & W4 & _ & F3). rewrite E3 in E3'. inversion E3'; subst n3'. clear E3'.
  apply (mi_less n3 _ none2 none2 M4); cbn [fs rds qs]; [eauto|eauto| |auto].
  intros g y r o A B. rewrite mfind_mdel in A by apply (wf_sorted n3 W4). destruct (g =? f)%Z; [discriminate|eauto].
Qed.

Lemma mi_sweepW e f : forall ws n n', MI n -> sweepWriters n e f ws = Ok n' -> MI n'.
Proof.
  induction ws as [|w t IH]; intros n n' M H; cbn [sweepWriters] in H; [inversion H; subst; exact M|].
  apply bind_ok in H. destruct H as (x & Hf & H). apply getF_ok in Hf.
  destruct (mfind w (fwr x)) as [p|] eqn:Hw; [|apply (IH n n' M H)].
  apply bind_ok in H. destruct H as (c & Hc & H). destruct c; [apply (IH n n' M H)|].
  apply bind_ok in H. destruct H as ([n1 b] & E1 & H). apply bind_ok in H. destruct H as ([n3 b3] & E3 & H).
  refine (IH n3 n' _ H). refine (mi_deleteWriter _ e f w n3 b3 _ E3). apply mi_setWr; [apply (mi_drop n p n1 b _ M E1)|].
  destruct (drop_track n p n1 b E1) as (F & _). congruence.
Qed.
Lemma mi_sweepR e f timed : forall rs n n', WF n -> RI n -> MI n -> sweepReaders n e f timed rs = Ok n' -> MI n'.
Proof.
  induction rs as [|r t IH]; intros n n' W R M H; cbn [sweepReaders] in H; [inversion H; subst; exact M|].
  apply bind_ok in H. destruct H as (x & Hf & H). apply getF_ok in Hf.
  destruct (mfind r (frd x)) as [[o|]|] eqn:Hr; [|destruct timed; [discriminate|apply (IH n n' W R M H)]|apply (IH n n' W R M H)].
  apply bind_ok in H. destruct H as (c & Hc & H). destruct c; [apply (IH n n' W R M H)|].
  apply bind_ok in H. destruct H as ([n1 b] & E1 & H). pose proof (ri_deleteReader n e f r n1 b W R E1) as R1.
  pose proof (mi_deleteReader n e f r n1 b W R (or_introl M) E1) as M1.
  destruct (deleteReader_ok n e f r x W Hf) as (n1' & b' & E1' & W1 & _); [congruence|]. rewrite E1 in E1'. inversion E1'; subst.
  apply (IH n1' n' W1 R1 M1 H).
Qed.

(** ** Connections that stay. *)
Lemma ref_yes n g y r o : mfind g (fs n) = Some y -> mfind r (frd y) = Some (Some o) -> referenced n o = true.
Proof.
  intros A B. unfold referenced. apply existsb_exists. exists (g, y). split; [apply mfind_In, A|]. cbn.
  apply existsb_exists. exists (r, Some o). split; [apply mfind_In, B|]. cbn. apply Nat.eqb_refl.
Qed.
Lemma keep_disc n o f n' b a w g r : WF n -> o < length (rds n) -> readerDisconnect n o f = Ok (n', b) -> connected n a w g r ->
  (g = f -> forall y, mfind g (fs n) = Some y -> mfind r (frd y) <> Some (Some o)) -> connected n' a w g r.
Proof.
  intros W L H (x & y & q & o1 & z & k & C1 & C2 & C3 & C4 & C5 & C6 & C7 & C8 & C9 & C10) Hx.
  destruct (nth_error (rds n) o) as [u|] eqn:Ho; [|apply nth_error_None in Ho; lia].
  destruct (disc_track n o f n' b u W Ho H) as (F & _ & _ & T).
  assert (D : o1 <> o \/ g <> f).
  { destruct (Z.eq_dec g f) as [->|]; [left|right; assumption]. intros ->. apply (Hx eq_refl y C3 C4). }
  destruct (T q k o1 z g C5 C6 C8 C9 C10 C7 D) as (z' & k' & E1 & E2 & E3 & E4 & E5 & E6).
  exists x, y, q, o1, z', k'. rewrite F. repeat (split; [assumption|]). assumption.
Qed.
Lemma keep_release n p n' a w g r : WF n -> releaseReader n p = Ok n' -> connected n a w g r -> connected n' a w g r.
Proof.
  intros W H (x & y & q & o1 & z & k & C1 & C2 & C3 & C4 & C5 & C6 & C7 & C8 & C9 & C10).
  destruct p as [o|]; cbn [releaseReader] in H.
  2:{ inversion H; subst. exists x, y, q, o1, z, k. repeat (split; [assumption|]). assumption. }
  destruct (referenced n o) eqn:Er; [inversion H; subst; exists x, y, q, o1, z, k; repeat (split; [assumption|]); assumption|].
  assert (Ho : o1 <> o) by (intros ->; rewrite (ref_yes n g y r o C3 C4) in Er; discriminate).
  apply bind_ok in H. destruct H as (u & Hu & H). unfold getR in Hu. destruct (nth_error (rds n) o) as [u'|] eqn:Eo; [|discriminate]. inversion Hu; subst u'.
  apply bind_ok in H. destruct H as ([n1 b1] & E1 & H). inversion H; subst n'. clear H.
  destruct (drop_track n (rq u) n1 b1 E1) as (F & R & _ & K).
  assert (Hq : rq u <> Some q) by (intros Hq; apply Ho; apply (rptrs_uniq q (rds n) o1 o z u (one_reader n q k W C8) C5 Eo C6 Hq)).
  exists x, y, q, o1, z, k. cbn [fs rds qs putR]. rewrite F, R. rewrite nth_error_upd_neq by congruence.
  repeat (split; [assumption|]). split; [apply (K q k Hq C8)|auto].
Qed.
(** An entry of a filter's inputs that goes, when it is not the one connected. *)
Lemma keep_setRd n f x m a w g r : mfind f (fs n) = Some x -> (g = f -> mfind r m = mfind r (frd x)) -> connected n a w g r ->
  connected (putF n f (setRd x m)) a w g r.
Proof.
  intros Hf Hm (xa & y & q & o1 & z & k & C1 & C2 & C3 & C4 & C5 & C6 & C7 & C8 & C9 & C10).
  assert (A : exists xa', mfind a (mset f (setRd x m) (fs n)) = Some xa' /\ fwr xa' = fwr xa).
  { rewrite mfind_mset. destruct (Z.eqb_spec a f) as [->|]; [|eauto]. eexists. split; [reflexivity|]. cbn. congruence. }
  assert (B : exists y', mfind g (mset f (setRd x m) (fs n)) = Some y' /\ mfind r (frd y') = Some (Some o1)).
  { rewrite mfind_mset. destruct (Z.eqb_spec g f) as [->|]; [|eauto]. eexists. split; [reflexivity|]. cbn. rewrite (Hm eq_refl). congruence. }
  destruct A as (xa' & A1 & A2). destruct B as (y' & B1 & B2). exists xa', y', q, o1, z, k. cbn [fs rds qs putF]. rewrite A2.
  repeat (split; [assumption|]). assumption.
Qed.
Lemma keep_setWr n f x m a w g r : mfind f (fs n) = Some x -> (a = f -> mfind w m = mfind w (fwr x)) -> connected n a w g r ->
  connected (putF n f (setWr x m)) a w g r.
Proof.
  intros Hf Hm (xa & y & q & o1 & z & k & C1 & C2 & C3 & C4 & C5 & C6 & C7 & C8 & C9 & C10).
  assert (A : exists xa', mfind a (mset f (setWr x m) (fs n)) = Some xa' /\ mfind w (fwr xa') = Some (Some q)).
  { rewrite mfind_mset. destruct (Z.eqb_spec a f) as [->|]; [|eauto]. eexists. split; [reflexivity|]. cbn. rewrite (Hm eq_refl). congruence. }
  assert (B : exists y', mfind g (mset f (setWr x m) (fs n)) = Some y' /\ frd y' = frd y).
  { rewrite mfind_mset. destruct (Z.eqb_spec g f) as [->|]; [|eauto]. eexists. split; [reflexivity|]. cbn. congruence. }
  destruct A as (xa' & A1 & A2). destruct B as (y' & B1 & B2). exists xa', y', q, o1, z, k. cbn [fs rds qs putF]. rewrite B2.
  repeat (split; [assumption|]). assumption.
Qed.
Lemma keep_drop n p n' b a w g r : dropQueue n p = Ok (n', b) ->
  (forall x q, mfind a (fs n) = Some x -> mfind w (fwr x) = Some (Some q) -> p <> Some q) -> connected n a w g r -> connected n' a w g r.
Proof.
  intros H Hp (xa & y & q & o1 & z & k & C1 & C2 & C3 & C4 & C5 & C6 & C7 & C8 & C9 & C10).
  destruct (drop_track n p n' b H) as (F & R & _ & K). exists xa, y, q, o1, z, k. rewrite F, R.
  repeat (split; [assumption|]). split; [apply (K q k (Hp xa q C1 C2) C8)|auto].
Qed.

(** Two inputs of one filter are never the same connected reader. *)
Lemma one_input n g y r r' o z q k : RI n -> MI n -> mfind g (fs n) = Some y -> mfind r (frd y) = Some (Some o) -> mfind r' (frd y) = Some (Some o) ->
  nth_error (rds n) o = Some z -> rq z = Some q -> nth_error (qs n) q = Some k -> qconn k = true -> r = r'.
Proof.
  intros R M Hg A B Hz Hq Hk Hc. destruct (M q k g y r o z Hk Hc Hg A Hz Hq) as [[]|I1]. destruct (M q k g y r' o z Hk Hc Hg B Hz Hq) as [[]|I2].
  apply (nodup_fst (qrd k) g r r' (ri_nd _ _ _ (R q k Hk Hc)) I1 I2).
Qed.

Lemma keep_deleteReader n e f r0 n' b a w g r : WF n -> deleteReader n e f r0 = Ok (n', b) -> connected n a w g r ->
  (g = f -> r <> r0 /\ forall x o z, mfind f (fs n) = Some x -> mfind r0 (frd x) = Some (Some o) -> nth_error (rds n) o = Some z ->
     In f (rfs z) -> mfind r (frd x) <> Some (Some o)) -> connected n' a w g r.
Proof.
  intros W H C HX. unfold deleteReader in H. apply bind_ok in H. destruct H as (x & E & H). apply getF_ok in E.
  destruct (mfind r0 (frd x)) as [[o|]|] eqn:Er; [|discriminate|inversion H; subst; exact C].
  apply bind_ok in H. destruct H as ([n1 b1] & E1 & H). apply bind_ok in H. destruct H as (n2 & E2 & H). inversion H; subst n2 b.
  pose proof (wf_rids n W f x r0 o E Er) as L. destruct (readerDisconnect_ok n o f W L) as (n1' & b1' & E1' & W1 & F1 & L1).
  rewrite E1 in E1'. inversion E1'; subst n1' b1'. clear E1'.
  assert (C1 : connected n1 a w g r).
  { pose proof C as (xa & y & q & o1 & z & k & D1 & D2 & D3 & D4 & D5 & D6 & D7 & D8 & D9 & D10).
    apply (keep_disc n o f n1 b1 a w g r W L E1 C). intros -> y' Hy Hr. destruct (HX eq_refl) as [N HX2].
    assert (y' = x) by congruence. subst y'. assert (y = x) by congruence. subst y. assert (o1 = o) by congruence. subst o1.
    apply (HX2 x o z E Er D5 D7 Hr). }
  refine (keep_release _ _ _ _ _ _ _ _ E2 _).
  - apply wf_setRd; [exact W1|congruence|apply msorted_mdel; apply (proj2 (wf_sorted n W) f x E)|].
    intros r1 o1 G. rewrite mfind_mdel in G by apply (proj2 (wf_sorted n W) f x E). destruct (r1 =? r0)%Z; [discriminate|].
    rewrite L1. apply (wf_rids n W f x r1 o1 E G).
  - apply keep_setRd; [congruence| |exact C1]. intros ->. destruct (HX eq_refl) as [N _].
    rewrite mfind_mdel by apply (proj2 (wf_sorted n W) f x E). destruct (Z.eqb_spec r r0); [contradiction|reflexivity].
Qed.
Lemma keep_deleteReader' n e f r0 n' b a w g r : WF n -> RI n -> MI n -> deleteReader n e f r0 = Ok (n', b) -> connected n a w g r ->
  ~ (g = f /\ r = r0) -> connected n' a w g r.
Proof.
  intros W R M H C N. apply (keep_deleteReader n e f r0 n' b a w g r W H C). intros ->. split; [intros ->; apply N; auto|].
  intros x o z A B D _ E. destruct C as (xa & y & q & o1 & z1 & k & D1 & D2 & D3 & D4 & D5 & D6 & D7 & D8 & D9 & D10).
  assert (y = x) by congruence. subst y. assert (o1 = o) by congruence. subst o1. assert (z1 = z) by congruence. subst z1.
  apply N. split; [reflexivity|]. apply (one_input n f x r r0 o z q k R M A E B D D6 D8 D10).
Qed.
Lemma keep_disconnectReader n e f r0 n' b a w g r : WF n -> RI n -> MI n -> disconnectReader n e f r0 = Ok (n', b) -> connected n a w g r ->
  ~ (g = f /\ r = r0) -> connected n' a w g r.
Proof.
  intros W R M H C N. unfold disconnectReader in H. apply bind_ok in H. destruct H as (x & E & H). apply getF_ok in E.
  destruct (mfind r0 (frd x)) as [[o|]|] eqn:Er; [|discriminate|inversion H; subst; exact C].
  apply bind_ok in H. destruct H as ([n1 b1] & E1 & H).
  pose proof (wf_rids n W f x r0 o E Er) as L. destruct (readerDisconnect_ok n o f W L) as (n1' & b1' & E1' & W1 & F1 & L1).
  rewrite E1 in E1'. inversion E1'; subst n1' b1'. clear E1'.
  assert (C1 : connected n1 a w g r).
  { pose proof C as (xa & y & q & o1 & z & k & D1 & D2 & D3 & D4 & D5 & D6 & D7 & D8 & D9 & D10).
    apply (keep_disc n o f n1 b1 a w g r W L E1 C). intros -> y' Hy Hr. assert (y' = x) by congruence. subst y'. assert (y = x) by congruence. subst y.
    assert (o1 = o) by congruence. subst o1. apply N. split; [reflexivity|]. apply (one_input n f x r r0 o z q k R M E Hr Er D5 D6 D8 D10). }
  destruct b1; [|inversion H; subst; exact C1].
  destruct (ri_disc n o f n1 true W R E1) as (R1 & _ & X1 & _).
  apply (keep_deleteReader n1 e f r0 n' b a w g r W1 H C1). intros ->. split; [intros ->; apply N; auto|].
  intros x' o' z A B D E' _. rewrite F1 in A. assert (x' = x) by congruence. subst x'. assert (o' = o) by congruence. subst o'. apply (X1 z D E').
Qed.

Lemma keep_dropReaders f a w g r : g <> f -> forall l n n', WF n -> (forall k o, In (k, Some o) l -> o < length (rds n)) ->
  dropReaders n f l = Ok n' -> connected n a w g r -> connected n' a w g r.
Proof.
  intros Hg. induction l as [|[k [o|]] t IH]; intros n n' W Hl H C; cbn [dropReaders] in H.
  - inversion H; subst. exact C.
  - destruct (0 <=? k)%Z.
    + apply bind_ok in H. destruct H as ([n1 b] & E1 & H). pose proof (Hl k o (or_introl eq_refl)) as L.
      destruct (readerDisconnect_ok n o f W L) as (n1' & b' & E1' & W1 & _ & L1). rewrite E1 in E1'. inversion E1'; subst n1' b'.
      apply (IH n1 n' W1); [|exact H|apply (keep_disc n o f n1 b a w g r W L E1 C); contradiction].
      intros k' o' Hi. rewrite L1. apply (Hl k' o'). right. exact Hi.
    + apply (IH n n' W); [|exact H|exact C]. intros k' o' Hi. apply (Hl k' o'). right. exact Hi.
  - apply (IH n n' W); [|exact H|exact C]. intros k' o' Hi. apply (Hl k' o'). right. exact Hi.
Qed.
Lemma keep_clearReaders a w g r : forall l n n', WF n -> (forall k o, In (k, Some o) l -> o < length (rds n)) ->
  clearReaders n l = Ok n' -> connected n a w g r -> connected n' a w g r.
Proof.
  induction l as [|[k p] t IH]; intros n n' W Hl H C; cbn [clearReaders] in H; [inversion H; subst; exact C|].
  apply bind_ok in H. destruct H as (n1 & E1 & H). destruct (releaseReader_ok n p W) as (n1' & E1' & W1 & F1 & L1).
  { intros o ->. apply (Hl k o). left. reflexivity. }
  rewrite E1 in E1'. inversion E1'; subst n1'. apply (IH n1 n' W1); [|exact H|apply (keep_release n p n1 a w g r W E1 C)].
  intros k' o' Hi. rewrite L1. apply (Hl k' o'). right. exact Hi.
Qed.
(** A queue has one output. *)
Lemma one_output n a w x q a' w' x' k : RI n -> nth_error (qs n) q = Some k -> qconn k = true ->
  mfind a (fs n) = Some x -> mfind w (fwr x) = Some (Some q) -> mfind a' (fs n) = Some x' -> mfind w' (fwr x') = Some (Some q) -> a = a' /\ w = w'.
Proof.
  intros R Hk Hc A B A' B'. pose proof (ri_w1 _ _ _ (R q k Hk Hc)) as U. pose proof (U a x w A B). pose proof (U a' x' w' A' B'). split; congruence.
Qed.
Lemma keep_eraseWriter n f w0 n' a w g r : WF n -> RI n -> eraseWriter n f w0 = Ok n' -> connected n a w g r -> a <> f \/ w <> w0 -> connected n' a w g r.
Proof.
  intros W R H C N. unfold eraseWriter in H. apply bind_ok in H. destruct H as (x & E & H). apply getF_ok in E.
  destruct (mfind w0 (fwr x)) as [p|] eqn:Ew; [|inversion H; subst; exact C].
  apply bind_ok in H. destruct H as ([n1 b] & E1 & H). inversion H; subst n'. destruct (drop_track n p n1 b E1) as (F & _).
  apply keep_setWr; [congruence| |].
  - intros ->. rewrite mfind_mdel by apply (proj2 (wf_sorted n W) f x E). destruct (Z.eqb_spec w w0) as [->|]; [|reflexivity]. destruct N; congruence.
  - apply (keep_drop n p n1 b a w g r E1); [|exact C]. intros xa q A B ->.
    destruct C as (xa1 & y & q1 & o1 & z & k & D1 & D2 & D3 & D4 & D5 & D6 & D7 & D8 & D9 & D10).
    assert (xa1 = xa) by congruence. subst xa1. assert (q1 = q) by congruence. subst q1.
    destruct (one_output n a w xa q f w0 x k R D8 D10 A B E Ew) as [-> ->]. destruct N; congruence.
Qed.
Lemma keep_clearWriters f a w g r : a <> f -> forall m n n' x, WF n -> RI n -> mfind f (fs n) = Some x -> fwr x = m ->
  clearWriters n f (mkeys m) = Ok n' -> connected n a w g r -> connected n' a w g r.
Proof.
  intros Ha. induction m as [|[w0 p] t IH]; intros n n' x W R Hf E H C; cbn [mkeys map clearWriters fst] in H; [inversion H; subst; exact C|].
  assert (Hw : mfind w0 (fwr x) = Some p) by (rewrite E; cbn; rewrite Z.eqb_refl; reflexivity).
  apply bind_ok in H. destruct H as (n1 & E1 & H). pose proof (ri_eraseWriter n f w0 n1 W R E1) as R1.
  destruct (eraseWriter_ok n f w0 x p W Hf Hw) as (n1' & E1' & W1 & _ & F1). rewrite E1 in E1'. inversion E1'; subst n1'.
  apply (IH n1 n' (setWr x (mdel w0 (fwr x))) W1 R1); [rewrite F1; apply mfind_mset_eq| |exact H|].
  - cbn. rewrite E. cbn. rewrite Z.eqb_refl. reflexivity.
  - apply (keep_eraseWriter n f w0 n1 a w g r W R E1 C). left. exact Ha.
Qed.
Lemma keep_destroy n f n' a w g r : WF n -> RI n -> destroyFilter n f = Ok n' -> a <> f -> g <> f -> connected n a w g r -> connected n' a w g r.
Proof.
  intros W R H Ha Hg C. unfold destroyFilter in H. apply bind_ok in H. destruct H as (x & Hf & H). apply getF_ok in Hf.
  assert (S := wf_sorted n W). destruct (proj2 S f x Hf) as [Sr Sw].
  assert (Hl : forall k o, In (k, Some o) (frd x) -> o < length (rds n)).
  { intros k o G. apply (wf_rids n W f x k o Hf). apply (In_mfind (frd x) None); assumption. }
  apply bind_ok in H. destruct H as (n1 & E1 & H).
  destruct (ri_dropReaders f (frd x) n n1 W R Hl E1) as (R1 & _ & X1 & _).
  pose proof (keep_dropReaders f a w g r Hg (frd x) n n1 W Hl E1 C) as C1.
  destruct (dropReaders_ok n f (frd x) W Hl) as (n1' & E1' & W1 & F1 & L1). rewrite E1 in E1'. inversion E1'; subst n1'. clear E1'.
  assert (C2 : connected (putF n1 f (setRd x [])) a w g r) by (apply keep_setRd; [congruence|intros; contradiction|exact C1]).
  apply bind_ok in H. destruct H as (n2 & E2 & H).
  assert (W2 : WF (putF n1 f (setRd x []))).
  { apply wf_setRd; [exact W1|congruence|exact I|]. intros r1 o G. discriminate. }
  assert (Hl2 : forall k o, In (k, Some o) (frd x) -> o < length (rds (putF n1 f (setRd x [])))) by (cbn; rewrite L1; exact Hl).
  pose proof (keep_clearReaders a w g r (frd x) _ n2 W2 Hl2 E2 C2) as C3.
  destruct (clearReaders_ok (putF n1 f (setRd x [])) (frd x) W2 Hl2) as (n2' & E2' & W3 & F2 & _).
  rewrite E2 in E2'. inversion E2'; subst n2'. clear E2'.
  assert (Hf2 : mfind f (fs n2) = Some (setRd x [])) by (rewrite F2; cbn; apply mfind_mset_eq).
  apply bind_ok in H. destruct H as (n3 & E3 & H). inversion H; subst n'. clear H.
  assert (R3 : RI n2).
  { apply (ri_clearReaders (frd x) (putF n1 f (setRd x []))); [|exact E2]. apply ri_setRd; [exact R1|congruence|]. intros r1 o z q k G1 R0 G2 G3 G4 G5 G6. exfalso.
    apply (X1 r1 o z R0 (mfind_In _ _ _ G1) G2 G6). }
  pose proof (keep_clearWriters f a w g r Ha (fwr x) n2 n3 (setRd x []) W3 R3 Hf2 eq_refl E3 C3) as C4.
  destruct (clearWriters_ok f (fwr x) n2 (setRd x []) W3 Hf2 eq_refl) as (n3' & E3' & W4 & _ & F3). rewrite E3 in E3'. inversion E3'; subst n3'. clear E3'.
  destruct C4 as (xa & y & q & o1 & z & k & D1 & D2 & D3 & D4 & D5 & D6 & D7 & D8 & D9 & D10). exists xa, y, q, o1, z, k. cbn [fs rds qs].
  rewrite !mfind_mdel by apply (wf_sorted n3 W4). destruct (Z.eqb_spec a f); [contradiction|]. destruct (Z.eqb_spec g f); [contradiction|].
  repeat (split; [assumption|]). assumption.
Qed.

Lemma keep_sweepW e f a w g r : forall ws n n', WF n -> RI n -> sweepWriters n e f ws = Ok n' -> connected n a w g r -> connected n' a w g r.
Proof.
  induction ws as [|w0 t IH]; intros n n' W R H C; cbn [sweepWriters] in H; [inversion H; subst; exact C|].
  apply bind_ok in H. destruct H as (x & Hf & H). apply getF_ok in Hf.
  destruct (mfind w0 (fwr x)) as [p|] eqn:Hw; [|apply (IH n n' W R H C)].
  apply bind_ok in H. destruct H as (c & Hc & H). destruct c; [apply (IH n n' W R H C)|].
  apply bind_ok in H. destruct H as ([n1 b] & E1 & H). apply bind_ok in H. destruct H as ([n3 b3] & E3 & H).
  destruct (ri_drop n p n1 b R E1) as (R1 & F1 & D1 & X1).
  destruct (drop_writer n f x w0 p (mset w0 None (fwr x)) W Hf Hw) as (n1' & E1' & _ & _ & W1).
  { apply msorted_mset. apply (proj2 (wf_sorted n W) f x Hf). }
  { intros q. pose proof (cntp_mset q (fwr x) None w0 None (proj2 (proj2 (wf_sorted n W) f x Hf))) as G. rewrite Hw in G. cbn in *. lia. }
  rewrite E1 in E1'. inversion E1'; subst n1'. clear E1'.
  assert (R2 : RI (putF n1 f (setWr x (mset w0 None (fwr x))))).
  { apply ri_setWr; [exact R1|congruence|]. intros w' q k A B. destruct (X1 q k A B) as [_ Hp]. rewrite mfind_mset.
    destruct (Z.eqb_spec w' w0) as [->|]; [|reflexivity]. rewrite Hw. split; intros G; [discriminate|congruence]. }
  pose proof (ri_deleteWriter _ _ _ _ _ _ W1 R2 E3) as R3.
  destruct (deleteWriter_ok _ e f w0 _ W1 ltac:(cbn; apply mfind_mset_eq)) as (n3' & b3' & E3' & W3 & _). rewrite E3 in E3'. inversion E3'; subst n3' b3'. clear E3'.
  apply (IH n3 n' W3 R3 H).
  assert (NP : forall q, p = Some q -> forall k, nth_error (qs n) q = Some k -> qconn k = false).
  { intros q -> k Hk. cbn [ptrConnected] in Hc. apply bind_ok in Hc. destruct Hc as (k' & Hk' & Hc). unfold getQ in Hk'. rewrite Hk in Hk'.
    destruct (qlive k); [|discriminate]. inversion Hk'; subst k'. congruence. }
  assert (NE : a <> f \/ w <> w0).
  { destruct (Z.eq_dec a f) as [->|]; [right|left; assumption]. intros ->.
    destruct C as (xa & y & q & o1 & z & k & D1' & D2 & D3 & D4 & D5 & D6 & D7 & D8 & D9 & D10). assert (xa = x) by congruence. subst xa.
    rewrite (NP q ltac:(congruence) k D8) in D10. discriminate. }
  assert (C1 : connected n1 a w g r).
  { apply (keep_drop n p n1 b a w g r E1); [|exact C]. intros xa q A B Hp.
    destruct C as (xa1 & y & q1 & o1 & z & k & D1' & D2 & D3 & D4 & D5 & D6 & D7 & D8 & D9 & D10).
    assert (q1 = q) by congruence. subst q1. rewrite (NP q Hp k D8) in D10. discriminate. }
  assert (C2 : connected (putF n1 f (setWr x (mset w0 None (fwr x)))) a w g r).
  { apply keep_setWr; [congruence| |exact C1]. intros ->. rewrite mfind_mset. destruct (Z.eqb_spec w w0); [destruct NE; congruence|reflexivity]. }
  unfold deleteWriter in E3. apply bind_ok in E3. destruct E3 as (x2 & Hx2 & E3).
  destruct (mfind w0 (fwr x2)) as [p2|]; [|inversion E3; subst; exact C2]. apply bind_ok in E3. destruct E3 as (n4 & E4 & E3). inversion E3; subst n4 b3.
  apply (keep_eraseWriter _ f w0 n3 a w g r W1 R2 E4 C2 NE).
Qed.
Lemma keep_sweepR e f timed a w g r : forall rs n n', WF n -> RI n -> MI n -> sweepReaders n e f timed rs = Ok n' -> connected n a w g r -> connected n' a w g r.
Proof.
  induction rs as [|r0 t IH]; intros n n' W R M H C; cbn [sweepReaders] in H; [inversion H; subst; exact C|].
  apply bind_ok in H. destruct H as (x & Hf & H). apply getF_ok in Hf.
  destruct (mfind r0 (frd x)) as [[o|]|] eqn:Hr; [|destruct timed; [discriminate|apply (IH n n' W R M H C)]|apply (IH n n' W R M H C)].
  apply bind_ok in H. destruct H as (c & Hc & H). destruct c; [apply (IH n n' W R M H C)|].
  apply bind_ok in H. destruct H as ([n1 b] & E1 & H). pose proof (ri_deleteReader n e f r0 n1 b W R E1) as R1.
  pose proof (mi_deleteReader n e f r0 n1 b W R (or_introl M) E1) as M1.
  destruct (deleteReader_ok n e f r0 x W Hf) as (n1' & b' & E1' & W1 & _); [congruence|]. rewrite E1 in E1'. inversion E1'; subst n1' b'.
  apply (IH n1 n' W1 R1 M1 H). apply (keep_deleteReader' n e f r0 n1 b a w g r W R M E1 C). intros [-> ->].
  destruct C as (xa & y & q & o1 & z & k & D1 & D2 & D3 & D4 & D5 & D6 & D7 & D8 & D9 & D10). assert (y = x) by congruence. subst y.
  assert (o1 = o) by congruence. subst o1. cbn [readerConnected] in Hc. unfold getR in Hc. rewrite D5 in Hc. cbn [bind] in Hc. rewrite D6 in Hc.
  cbn [ptrConnected] in Hc. unfold getQ in Hc. rewrite D8, D9 in Hc. cbn [bind] in Hc. congruence.
Qed.

(** ** The pipeline. *)
(** What a command cuts: nothing but the inputs D, between filters that are there afterwards. *)
Definition cuts (n n' : net) (D : Z -> Z -> Prop) : Prop := forall a w g r, connected n a w g r ->
  mfind a (fs n') <> None -> mfind g (fs n') <> None -> ~ D g r -> connected n' a w g r.
Definition less (n n' : net) : Prop := forall f, mfind f (fs n') <> None -> mfind f (fs n) <> None.
Lemma cuts_trans a b c D : cuts a b D -> cuts b c D -> less b c -> cuts a c D.
Proof. intros H1 H2 L f w g r C A B N. apply (H2 f w g r); auto. Qed.
Lemma cuts_mono a b (D E : Z -> Z -> Prop) : cuts a b D -> (forall g r, D g r -> E g r) -> cuts a b E.
Proof. intros H HE f w g r C A B N. apply (H f w g r C A B). auto. Qed.
Lemma cuts_keeps a b D : keepsConn a b -> cuts a b D.
Proof. intros H f w g r C _ _ _. apply H, C. Qed.
Lemma less_trans a b c : less a b -> less b c -> less a c.
Proof. unfold less. auto. Qed.
Lemma less_skel a b : skel (fs b) = skel (fs a) -> less a b.
Proof. intros S f H. apply (present_skel b a f (eq_sym S) H). Qed.
Lemma less_mdel a b f : WF a -> fs b = mdel f (fs a) -> less a b.
Proof. intros W E g H. rewrite E, mfind_mdel in H by apply (wf_sorted a W). destruct (g =? f)%Z; congruence. Qed.

Lemma keep_dropFilter p f p' D : PI p -> RI (pnet p) -> MI (pnet p) -> dropFilter p f = Ok p' -> MI (pnet p') /\ cuts (pnet p) (pnet p') D.
Proof.
  intros PIp R M H. unfold dropFilter in H. destruct (negb (ppool p)); [discriminate|].
  destruct (mfind f (pfilters p)) as [x|] eqn:Hf; [|inversion H; subst; split; [exact M|apply cuts_keeps, keepsConn_refl]]. destruct (existsb _ _); [discriminate|].
  apply bind_ok in H. destruct H as (n & E & H). inversion H; subst. cbn [pnet]. split; [apply (mi_destroy (pnet p) f n (pi_wf p PIp) R M E)|].
  destruct (destroyFilter_ok (pnet p) f x (pi_wf p PIp) Hf) as (n' & E' & W' & F' & _). rewrite E in E'. inversion E'; subst n'.
  intros a w g r C A B _. rewrite F', mfind_mdel in A, B by apply (wf_sorted _ (pi_wf p PIp)).
  apply (keep_destroy (pnet p) f n a w g r (pi_wf p PIp) R E); [| |exact C]; intros ->; rewrite Z.eqb_refl in *; congruence.
Qed.
Lemma keep_dropMids e : forall l p p' D, PI p -> ppool p = true -> dropMids p e l = Ok p' -> RI (pnet p) -> MI (pnet p) ->
  MI (pnet p') /\ cuts (pnet p) (pnet p') D /\ less (pnet p) (pnet p').
Proof.
  induction l as [|m t IH]; intros p p' D PIp Hp H R M; cbn [dropMids] in H.
  { inversion H; subst. split; [exact M|]. split; [apply cuts_keeps, keepsConn_refl|]. unfold less. auto. }
  apply bind_ok in H. destruct H as ([n b] & H1 & H). apply bind_ok in H. destruct H as (p1 & H2 & H).
  destruct (mfind m (pfilters p)) as [x|] eqn:Hm; [|rewrite disc_none in H1 by exact Hm; discriminate].
  pose proof (disc_case (pnet p) e m DEFAULT_ID x (pi_wf p PIp) Hm) as S. rewrite H1 in S. cbn in S. destruct S as (W & Sk & Sh).
  pose proof (pi_withNet p n PIp W Sk) as PI1. destruct (dropFilter_ok (withNet p n) m PI1 Hp) as (p1' & E1 & PI2 & Hp2 & _ & _ & Ef & _).
  rewrite H2 in E1. inversion E1; subst p1'. clear E1.
  pose proof (ri_disconnectReader (pnet p) e m DEFAULT_ID n b (pi_wf p PIp) R H1) as R1.
  pose proof (mi_disconnectReader (pnet p) e m DEFAULT_ID n b (pi_wf p PIp) R M H1) as M1.
  destruct (keep_dropFilter (withNet p n) m p1 D PI1 R1 M1 H2) as [M2 K2].
  pose proof (ri_dropFilter (withNet p n) m p1 PI1 H2 R1) as R2.
  destruct (IH p1 p' D PI2 Hp2 H R2 M2) as (M3 & K3 & L3). cbn [pnet withNet] in *.
  assert (L2 : less n (pnet p1)) by (apply (less_mdel n (pnet p1) m W Ef)).
  split; [exact M3|]. split; [|apply (less_trans _ (pnet p1)); [apply (less_trans _ n); [apply less_skel, Sk|exact L2]|exact L3]].
  apply (cuts_trans _ (pnet p1)); [|exact K3|exact L3]. intros a w g r C A B N. apply (K2 a w g r); [|exact A|exact B|exact N].
  apply (keep_disconnectReader (pnet p) e m DEFAULT_ID n b a w g r (pi_wf p PIp) R M H1 C). intros [-> _].
  unfold pfilters in Ef. cbn [pnet withNet] in Ef. rewrite Ef, mfind_mdel in B by apply (wf_sorted n W). rewrite Z.eqb_refl in B. congruence.
Qed.

Definition aimed (p : pipe) (id g r : Z) : Prop := exists pa, mfind id (ppaths p) = Some pa /\ pdst pa = g /\ pdr pa = r.
Lemma keep_deletePath p e id p' b : PI p -> deletePath p e id = Ok (p', b) -> RI (pnet p) -> MI (pnet p) ->
  MI (pnet p') /\ cuts (pnet p) (pnet p') (aimed p id) /\ less (pnet p) (pnet p').
Proof.
  intros PIp H R M. assert (TR : MI (pnet p) /\ cuts (pnet p) (pnet p) (aimed p id) /\ less (pnet p) (pnet p)).
  { split; [exact M|]. split; [apply cuts_keeps, keepsConn_refl|unfold less; auto]. }
  unfold deletePath in H. destruct (mfind id (ppaths p)) as [pa|] eqn:Hid; [|inversion H; subst; exact TR].
  destruct (negb (pathLive p pa)); [discriminate|].
  destruct (negb (mmem (porg pa) (pfilters p)) || negb (mmem (pdst pa) (pfilters p))) eqn:Eod; [inversion H; subst; exact TR|].
  destruct (negb (forallb _ _)); [inversion H; subst; exact TR|].
  apply orb_false_iff in Eod. destruct Eod as [_ Ed]. apply negb_false_iff in Ed. unfold mmem in Ed.
  destruct (mfind (pdst pa) (pfilters p)) as [xd|] eqn:Hd; [|discriminate].
  assert (Hp : ppool p = true) by (apply (pi_pool p PIp); intros E; rewrite E in Hd; discriminate).
  pose proof (disc_case (pnet p) e (pdst pa) (pdr pa) xd (pi_wf p PIp) Hd) as S.
  apply bind_ok in H. destruct H as ([n1 ok] & E & H). rewrite E in S. cbn in S. destruct S as (W1 & Sk1 & _).
  pose proof (ri_disconnectReader _ _ _ _ _ _ (pi_wf p PIp) R E) as R1. pose proof (mi_disconnectReader _ _ _ _ _ _ (pi_wf p PIp) R M E) as M1.
  assert (K1 : cuts (pnet p) n1 (aimed p id)).
  { intros a w g r C A B N. apply (keep_disconnectReader _ _ _ _ _ _ a w g r (pi_wf p PIp) R M E C). intros [-> ->]. apply N. exists pa. auto. }
  pose proof (less_skel _ _ Sk1) as L1.
  destruct ok; cbn [negb] in H; [|inversion H; subst; cbn [pnet withNet]; auto].
  pose proof (pi_withNet p n1 PIp W1 Sk1) as PI1.
  apply bind_ok in H. destruct H as (p2 & E2 & H).
  pose proof (dropMids_safe (withNet p n1) e (rev (pmid pa)) PI1 Hp) as S2. rewrite E2 in S2. destruct S2 as (PI2 & [Q1 Q2 Q3 Q4] & _). cbn in Q3.
  destruct (ri_dropMids e _ _ _ PI1 Hp E2 R1) as [R2 _]. destruct (keep_dropMids e _ _ _ (aimed p id) PI1 Hp E2 R1 M1) as (M2 & K2 & L2). cbn [pnet withNet] in K2, L2.
  apply bind_ok in H. destruct H as (uo & _ & H). apply bind_ok in H. destruct H as (ud & _ & H).
  apply bind_ok in H. destruct H as (p3 & E3 & H). apply bind_ok in H. destruct H as (p4 & E4 & H). inversion H; subst. cbn [pnet].
  destruct (maybe_drop p2 ud (pdst pa) PI2) as (p3' & E3' & PI3 & [Q5 Q6 Q7 Q8] & _); [congruence|].
  rewrite E3 in E3'. inversion E3'; subst p3'. clear E3'.
  assert (X3 : RI (pnet p3) /\ MI (pnet p3) /\ cuts (pnet p2) (pnet p3) (aimed p id) /\ less (pnet p2) (pnet p3)).
  { destruct ud.
    - inversion E3; subst. split; [exact R2|]. split; [exact M2|]. split; [apply cuts_keeps, keepsConn_refl|unfold less; auto].
    - split; [apply (ri_dropFilter p2 (pdst pa) p3 PI2 E3 R2)|].
      destruct (keep_dropFilter p2 (pdst pa) p3 (aimed p id) PI2 R2 M2 E3) as [M3 K3]. split; [exact M3|]. split; [exact K3|].
      destruct (dropFilter_ok p2 (pdst pa) PI2 ltac:(congruence)) as (p3' & F & _ & _ & _ & _ & Ef & _). rewrite E3 in F. inversion F; subst p3'.
      apply (less_mdel _ _ (pdst pa) (pi_wf p2 PI2) Ef). }
  destruct X3 as (R3 & M3 & K3 & L3).
  assert (X4 : MI (pnet p4) /\ cuts (pnet p3) (pnet p4) (aimed p id) /\ less (pnet p3) (pnet p4)).
  { destruct uo.
    - inversion E4; subst. split; [exact M3|]. split; [apply cuts_keeps, keepsConn_refl|unfold less; auto].
    - destruct (keep_dropFilter p3 (porg pa) p4 (aimed p id) PI3 R3 M3 E4) as [M4 K4]. split; [exact M4|]. split; [exact K4|].
      destruct (dropFilter_ok p3 (porg pa) PI3 ltac:(congruence)) as (p4' & F & _ & _ & _ & _ & Ef & _). rewrite E4 in F. inversion F; subst p4'.
      apply (less_mdel _ _ (porg pa) (pi_wf p3 PI3) Ef). }
  destruct X4 as (M4 & K4 & L4). split; [exact M4|].
  assert (L24 : less (pnet p2) (pnet p4)) by (apply (less_trans _ (pnet p3)); assumption).
  assert (L14 : less n1 (pnet p4)) by (apply (less_trans _ (pnet p2)); assumption).
  split; [|apply (less_trans _ n1); assumption].
  apply (cuts_trans _ n1); [exact K1| |exact L14]. apply (cuts_trans _ (pnet p2)); [exact K2| |exact L24].
  apply (cuts_trans _ (pnet p3)); assumption.
Qed.

Lemma keep_stopPaths e l : forall p p' b, PI p -> stopPaths p e l = Ok (p', b) -> RI (pnet p) -> MI (pnet p) ->
  MI (pnet p') /\ cuts (pnet p) (pnet p') (fun g r => exists id, aimed p id g r) /\ less (pnet p) (pnet p').
Proof.
  induction l as [|i t IH]; intros p p' b PIp H R M; cbn [stopPaths] in H.
  { inversion H; subst. split; [exact M|]. split; [apply cuts_keeps, keepsConn_refl|]. unfold less. auto. }
  apply bind_ok in H. destruct H as ([p1 ok] & H1 & H). destruct (ri_deletePath p e i p1 ok PIp H1 R) as [R1 _].
  destruct (keep_deletePath p e i p1 ok PIp H1 R M) as (M1 & K1 & L1).
  pose proof (deletePath_safe p e i PIp) as S. rewrite H1 in S. destruct S as (PI1 & Ep & _).
  assert (K1' : cuts (pnet p) (pnet p1) (fun g r => exists id, aimed p id g r)) by (apply (cuts_mono _ _ _ _ K1); eauto).
  destruct ok; [|inversion H; subst; auto]. destruct (IH p1 p' b PI1 H R1 M1) as (M2 & K2 & L2). split; [exact M2|].
  split; [|apply (less_trans _ (pnet p1)); assumption]. apply (cuts_trans _ (pnet p1)); [exact K1'| |exact L2].
  apply (cuts_mono _ _ _ _ K2). intros g r (id & pa & A & B). exists id, pa. rewrite <- Ep. auto.
Qed.
Lemma keep_stopFilters D : forall l p p', PI p -> ppool p = true -> stopFilters p l = Ok p' -> RI (pnet p) -> MI (pnet p) ->
  MI (pnet p') /\ cuts (pnet p) (pnet p') D /\ less (pnet p) (pnet p').
Proof.
  induction l as [|a t IH]; intros p p' PIp Hp H R M; cbn [stopFilters] in H.
  { inversion H; subst. split; [exact M|]. split; [apply cuts_keeps, keepsConn_refl|]. unfold less. auto. }
  apply bind_ok in H. destruct H as (p1 & H1 & H). destruct (dropFilter_ok p a PIp Hp) as (p1' & E1 & B1 & B2 & _ & _ & Ef & _). rewrite H1 in E1. inversion E1; subst p1'.
  destruct (keep_dropFilter p a p1 D PIp R M H1) as [M1 K1]. destruct (IH p1 p' B1 B2 H (ri_dropFilter p a p1 PIp H1 R) M1) as (M2 & K2 & L2).
  split; [exact M2|]. split; [apply (cuts_trans _ (pnet p1)); assumption|]. apply (less_trans _ (pnet p1)); [apply (less_mdel _ _ a (pi_wf p PIp) Ef)|exact L2].
Qed.

Lemma cmd_keeps p e c p' b : PI p -> RI (pnet p) -> MI (pnet p) -> pcmd p e c = Ok (p', b) ->
  MI (pnet p') /\ cuts (pnet p) (pnet p') (fun g r => exists id, (c = RemovePath id \/ c = Stop) /\ aimed p id g r).
Proof.
  intros PIp R M H. assert (TR : forall D, MI (pnet p) /\ cuts (pnet p) (pnet p) D).
  { intros D. split; [exact M|apply cuts_keeps, keepsConn_refl]. }
  destruct c as [id t made|id org dst ow dr mids|id|f| |f|f timed]; cbn [pcmd] in H.
  - inversion H as [H1]. unfold createFilter in H1. destruct ((id <? 0)%Z || mmem id (pfilters p)) eqn:Em; [inversion H1; subst; apply TR|].
    apply orb_false_iff in Em. destruct Em as [_ Em]. unfold mmem in Em. destruct (mfind id (pfilters p)) eqn:Hid; [discriminate|].
    unfold pfilters in Hid.
    assert (G : forall D x, fwr x = [] -> frd x = [] -> MI (mkNet (mset id x (fs (pnet p))) (rds (pnet p)) (qs (pnet p))) /\
       cuts (pnet p) (mkNet (mset id x (fs (pnet p))) (rds (pnet p)) (qs (pnet p))) D).
    { intros D x E1 E2. split.
      - apply (mi_less (pnet p) _ none2 none2 M); cbn [fs rds qs]; [eauto|eauto| |auto].
        intros g y r o A B. rewrite mfind_mset in A. destruct (g =? id)%Z; [inversion A; subst; rewrite E2 in B; discriminate|eauto].
      - intros a w g r (xa & y & q & o1 & z & k & D1 & D2 & D3 & D4 & D5 & D6 & D7 & D8 & D9 & D10) _ _ _. exists xa, y, q, o1, z, k. cbn [fs rds qs].
        rewrite !mfind_mset_neq by congruence. repeat (split; [assumption|]). assumption. }
    destruct t; try (destruct made; inversion H1; subst; try apply TR; apply G; reflexivity).
  - pose proof (createPathEvent_safe p e id org dst ow dr mids PIp) as S. rewrite H in S. cbn [safe] in S. destruct S as (_ & _ & _ & _ & _ & K & _).
    split; [|apply cuts_keeps, K].
    unfold createPathEvent in H. destruct (createPath_ok p e id org dst ow dr mids) as (p1 & c & E & F1 & F2). rewrite E in H. cbn [bind] in H.
    destruct c; cbn [negb] in H; [|inversion H; subst; rewrite (F1 eq_refl); exact M].
    destruct (createPath_ids _ _ _ _ _ _ _ _ _ E) as (pa' & I1 & I2 & I3 & I4).
    destruct (F2 eq_refl) as (pa & (A1 & A2 & A3 & A4 & A5 & A6 & A7) & -> & _). cbn [ppaths] in *. rewrite mfind_mset_eq in H, I1. inversion I1; subst pa'.
    cbn [pnet] in H. apply bind_ok in H. destruct H as ([n ok] & E2 & H). inversion H; subst p' b.
    apply (mi_connectPath (pnet p) e pa n ok (pi_wf p PIp) R M A6 I2 E2).
  - unfold removePath in H. destruct (negb _); [inversion H; subst; apply TR|]. apply bind_ok in H. destruct H as ([p1 ok] & H1 & H).
    destruct (keep_deletePath p e id p1 ok PIp H1 R M) as (M1 & K1 & _).
    assert (X : MI (pnet p1) /\ cuts (pnet p) (pnet p1) (fun g r => exists id0, (RemovePath id = RemovePath id0 \/ RemovePath id = Stop) /\ aimed p id0 g r)).
    { split; [exact M1|]. apply (cuts_mono _ _ _ _ K1). intros g r A. exists id. auto. }
    destruct ok; inversion H; subst; exact X.
  - unfold removeFilter in H. destruct (mfind f (pfilters p)) as [x|] eqn:Hf; [|inversion H; subst; apply TR].
    apply bind_ok in H. destruct H as (u & _ & H). destruct u; [inversion H; subst; apply TR|].
    apply bind_ok in H. destruct H as (p1 & H1 & H). inversion H; subst. apply (keep_dropFilter p f p' _ PIp R M H1).
  - unfold stop in H. destruct (ppool p) eqn:Hp; cbn [negb] in H; [|inversion H; subst; apply TR].
    apply bind_ok in H. destruct H as ([p1 ok] & H1 & H). pose proof (ri_stopPaths e _ _ _ _ PIp H1 R) as R1.
    destruct (keep_stopPaths e _ _ _ _ PIp H1 R M) as (M1 & K1 & L1).
    assert (K1' : cuts (pnet p) (pnet p1) (fun g r => exists id, (Stop = RemovePath id \/ Stop = Stop) /\ aimed p id g r)).
    { apply (cuts_mono _ _ _ _ K1). intros g r (id & A). exists id. auto. }
    pose proof (stopPaths_safe e (mkeys (ppaths p)) p PIp) as S. rewrite H1 in S. destruct S as (PI1 & _ & _ & Ep & _).
    destruct ok; cbn [negb] in H; [|inversion H; subst; auto]. apply bind_ok in H. destruct H as (p3 & E3 & H). inversion H; subst. cbn [pnet].
    destruct (keep_stopFilters (fun g r => exists id, (Stop = RemovePath id \/ Stop = Stop) /\ aimed p id g r) _ _ p3 (pi_nopaths _ PI1) ltac:(cbn; congruence) E3) as (M3 & K3 & L3); [exact R1|exact M1|].
    split; [exact M3|]. apply (cuts_trans _ (pnet p1)); [exact K1'|exact K3|exact L3].
  - destruct (mfind f (pfilters p)) as [x|] eqn:Hf; [|inversion H; subst; apply TR].
    apply bind_ok in H. destruct H as (n & E & H). inversion H; subst. cbn [pnet withNet]. split; [apply (mi_sweepW e f _ _ _ M E)|].
    apply cuts_keeps. intros a w g r C. apply (keep_sweepW e f a w g r _ _ _ (pi_wf p PIp) R E C).
  - destruct (mfind f (pfilters p)) as [x|] eqn:Hf; [|inversion H; subst; apply TR].
    apply bind_ok in H. destruct H as (n & E & H). inversion H; subst. cbn [pnet withNet]. split; [apply (mi_sweepR e f timed _ _ _ (pi_wf p PIp) R M E)|].
    apply cuts_keeps. intros a w g r C. apply (keep_sweepR e f timed a w g r _ _ _ (pi_wf p PIp) R M E C).
Qed.
Lemma mi_hist p h : phist p h -> MI (pnet p).
Proof.
  induction 1 as [|p h e c p' a Hh IH Hc]; [intros q k g y r o z A; destruct q; discriminate|].
  apply (cmd_keeps p e c p' a); auto; [apply (phist_inv p h Hh)|apply (ri_hist p h Hh)].
Qed.
