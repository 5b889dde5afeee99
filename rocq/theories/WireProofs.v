From Verif Require Import Base ZMap NetModel NetProofs PipeModel PipeSpec PipeProofs WireSpec.

(** What a connected queue knows of its two ends. *)
Record RIq (n : net) (q : nat) (k : queueo) : Prop := {
  ri_w : exists x, mfind (fst (qwr k)) (fs n) = Some x /\ mfind (snd (qwr k)) (fwr x) = Some (Some q);
  ri_w1 : forall f x w, mfind f (fs n) = Some x -> mfind w (fwr x) = Some (Some q) -> qwr k = (f, w);
  ri_nd : NoDup (map fst (qrd k));
  ri_r : forall g r, In (g, r) (qrd k) -> (0 <= r)%Z /\ exists y o z, mfind g (fs n) = Some y /\
           mfind r (frd y) = Some (Some o) /\ nth_error (rds n) o = Some z /\ rq z = Some q /\ In g (rfs z);
  ri_c : forall o z g, nth_error (rds n) o = Some z -> rq z = Some q -> In g (rfs z) -> In g (map fst (qrd k))
}.
Definition RI (n : net) : Prop := forall q k, nth_error (qs n) q = Some k -> qconn k = true -> RIq n q k.

Lemma riq_keep n n' q k : RIq n q k ->
  (forall f x w, mfind f (fs n) = Some x -> mfind w (fwr x) = Some (Some q) ->
     exists x', mfind f (fs n') = Some x' /\ mfind w (fwr x') = Some (Some q)) ->
  (forall f x w, mfind f (fs n') = Some x -> mfind w (fwr x) = Some (Some q) ->
     exists x', mfind f (fs n) = Some x' /\ mfind w (fwr x') = Some (Some q)) ->
  (forall g r y o z, In (g, r) (qrd k) -> (0 <= r)%Z -> mfind g (fs n) = Some y -> mfind r (frd y) = Some (Some o) ->
     nth_error (rds n) o = Some z -> rq z = Some q -> In g (rfs z) ->
     exists y', mfind g (fs n') = Some y' /\ mfind r (frd y') = Some (Some o) /\ nth_error (rds n') o = Some z) ->
  (forall o z, nth_error (rds n') o = Some z -> rq z = Some q -> nth_error (rds n) o = Some z) ->
  RIq n' q k.
Proof.
  intros [A B C D E] H1 H2 H3 H4. constructor.
  - destruct A as (x & A1 & A2). apply (H1 _ x _ A1 A2).
  - intros f x w F1 F2. destruct (H2 f x w F1 F2) as (x' & G1 & G2). apply (B f x' w G1 G2).
  - exact C.
  - intros g r Hin. destruct (D g r Hin) as (R0 & y & o & z & D1 & D2 & D3 & D4 & D5). split; [exact R0|].
    destruct (H3 g r y o z Hin R0 D1 D2 D3 D4 D5) as (y' & G1 & G2 & G3). exists y', o, z. auto.
  - intros o z g F1 F2. apply (E o z g (H4 o z F1 F2) F2).
Qed.

Lemma ri_drop n p n' b : RI n -> dropQueue n p = Ok (n', b) -> RI n' /\ fs n' = fs n /\ rds n' = rds n /\
  (forall q k, nth_error (qs n') q = Some k -> qconn k = true -> nth_error (qs n) q = Some k /\ p <> Some q).
Proof.
  intros R H. destruct p as [q0|]; cbn [dropQueue] in H.
  2:{ inversion H; subst. split; [exact R|]. split; [reflexivity|]. split; [reflexivity|]. intros q k A B. split; [exact A|discriminate]. }
  apply bind_ok in H. destruct H as (k0 & E & H). unfold getQ in E.
  destruct (nth_error (qs n) q0) as [k1|] eqn:En; [|discriminate].
  assert (L : q0 < length (qs n)) by (apply nth_error_Some; congruence).
  assert (Hx : exists k2, n' = putQ n q0 k2 /\ qconn k2 = false).
  { destruct (qconn k0); inversion H; subst; eexists; split; reflexivity. }
  destruct Hx as (k2 & -> & C2). cbn [fs rds qs putQ].
  assert (X : forall q k, nth_error (upd (qs n) q0 k2) q = Some k -> qconn k = true -> nth_error (qs n) q = Some k /\ Some q0 <> Some q).
  { intros q k A B. destruct (Nat.eq_dec q0 q) as [->|Hq].
    - rewrite nth_error_upd_eq in A by exact L. inversion A; subst. congruence.
    - rewrite nth_error_upd_neq in A by exact Hq. split; [exact A|congruence]. }
  split; [|split; [reflexivity|split; [reflexivity|exact X]]].
  intros q k A B. destruct (X q k A B) as [A' _]. pose proof (R q k A' B) as [Q1 Q2 Q3 Q4 Q5]. constructor; assumption.
Qed.

Lemma ri_putR_none n o x l : RI n -> nth_error (rds n) o = Some x ->
  (forall q k, rq x = Some q -> nth_error (qs n) q = Some k -> qconn k = true -> False) -> RI (putR n o (mkR None l)).
Proof.
  intros R Ho Hx q k A B. cbn in A. pose proof (R q k A B) as Q.
  assert (L : o < length (rds n)) by (apply nth_error_Some; congruence).
  assert (X : forall o' z, nth_error (rds n) o' = Some z -> rq z = Some q -> o' <> o).
  { intros o' z F G ->. rewrite Ho in F. inversion F; subst. apply (Hx q k G A B). }
  apply (riq_keep n); [exact Q| | | |]; cbn [fs rds putR].
  - intros f y w F G. eauto.
  - intros f y w F G. eauto.
  - intros g r y o' z F R0 G1 G2 G3 G4 G5. exists y. split; [exact G1|]. split; [exact G2|].
    rewrite nth_error_upd_neq by (intros E; apply (X o' z G3 G4); congruence). exact G3.
  - intros o' z F G. destruct (Nat.eq_dec o o') as [->|Hn].
    + rewrite nth_error_upd_eq in F by exact L. inversion F; subst. discriminate.
    + rewrite nth_error_upd_neq in F by exact Hn. exact F.
Qed.

Lemma rptrs_uniq q l : forall a b x y, rptrs q l <= 1 -> nth_error l a = Some x -> nth_error l b = Some y ->
  rq x = Some q -> rq y = Some q -> a = b.
Proof.
  induction l as [|h t IH]; intros [|a] [|b] x y H A B E1 E2; cbn in A, B; try discriminate; cbn [rptrs] in H.
  - reflexivity.
  - inversion A; subst. rewrite E1 in H. cbn in H. rewrite Nat.eqb_refl in H. pose proof (rptrs_in q t b y B E2). lia.
  - inversion B; subst. rewrite E2 in H. cbn in H. rewrite Nat.eqb_refl in H. pose proof (rptrs_in q t a x A E1). lia.
  - f_equal. apply (IH a b x y); auto. lia.
Qed.
Lemma one_reader n q k : WF n -> nth_error (qs n) q = Some k -> rptrs q (rds n) <= 1.
Proof.
  intros W H. pose proof (wf_heap n W q) as Q. cbn beta in Q. rewrite H in Q. unfold qok in Q.
  destruct (qlive k); [destruct (qconn k)|]; lia.
Qed.

Lemma dropReader_in f l a b : NoDup (map fst l) -> In (a, b) (dropReader f l) <-> In (a, b) l /\ a <> f.
Proof.
  induction l as [|[c d] t IH]; cbn; intros N; [tauto|].
  inversion N as [|? ? N1 N2]; subst. destruct (Z.eqb_spec c f) as [->|Hc].
  - split.
    + intros H. split; [right; exact H|]. intros ->. apply N1. apply in_map_iff. exists (f, b). auto.
    + intros [[H|H] Ha]; [inversion H; subst; contradiction|exact H].
  - cbn. rewrite (IH N2). split; [intros [H|[H1 H2]]; [inversion H; subst; auto|auto]|intros [[H|H] Ha]; auto].
Qed.
Lemma dropReader_nd f l : NoDup (map fst l) -> NoDup (map fst (dropReader f l)).
Proof.
  induction l as [|[c d] t IH]; cbn; intros N; [constructor|].
  inversion N as [|? ? N1 N2]; subst. destruct (Z.eqb_spec c f) as [->|Hc]; [exact N2|].
  cbn. constructor; [|apply IH, N2]. intros H. apply N1. apply in_map_iff in H. destruct H as ([c' d'] & E & H). cbn in E. subst c'.
  apply dropReader_in in H; [|exact N2]. apply in_map_iff. exists (c, d'). split; [reflexivity|apply H].
Qed.
Lemma rm_in (f : Z) l g : In g (filter (fun y => negb (y =? f)%Z) l) <-> In g l /\ g <> f.
Proof.
  rewrite filter_In. rewrite negb_true_iff, Z.eqb_neq. tauto.
Qed.

Lemma ri_disc n o f n' b : WF n -> RI n -> readerDisconnect n o f = Ok (n', b) -> RI n' /\ fs n' = fs n /\
  (forall z, nth_error (rds n') o = Some z -> ~ In f (rfs z)) /\ (forall o', o' <> o -> nth_error (rds n') o' = nth_error (rds n) o').
Proof.
  intros W R H. unfold readerDisconnect in H. apply bind_ok in H. destruct H as (x & E & H).
  unfold getR in E. destruct (nth_error (rds n) o) as [x'|] eqn:Ho; [|discriminate]. inversion E; subst x'. clear E.
  assert (L : o < length (rds n)) by (apply nth_error_Some; congruence).
  destruct (existsb (Z.eqb f) (rfs x)) eqn:Ef; cbn [negb] in H.
  2:{ inversion H; subst. split; [exact R|]. split; [reflexivity|]. split; [|reflexivity].
      intros z Hz Hin. rewrite Ho in Hz. inversion Hz; subst.
      assert (existsb (Z.eqb f) (rfs z) = true); [|congruence]. apply existsb_exists. exists f. split; [exact Hin|apply Z.eqb_refl]. }
  set (fl := filter (fun y => negb (y =? f)%Z) (rfs x)) in *.
  apply bind_ok in H. destruct H as (n2 & E2 & H).
  assert (X2 : RI n2 /\ fs n2 = fs n /\ rds n2 = upd (rds n) o (mkR (rq x) fl)).
  { destruct (rq x) as [q0|] eqn:Eq.
    - apply bind_ok in E2. destruct E2 as (k0 & Ek & E2). unfold getQ in Ek. cbn [qs putR] in Ek.
      destruct (nth_error (qs n) q0) as [k1|] eqn:Ek1; [|discriminate]. destruct (qlive k1); [|discriminate].
      inversion Ek; subst k1. clear Ek. inversion E2; subst n2. clear E2. split; [|split; reflexivity].
      assert (Lq : q0 < length (qs n)) by (apply nth_error_Some; congruence).
      intros q k A B. cbn [qs putQ putR] in A. destruct (Nat.eq_dec q0 q) as [<-|Hq].
      + rewrite nth_error_upd_eq in A by exact Lq. inversion A; subst k. cbn [qconn] in B.
        pose proof (R q0 k0 Ek1 B) as [A1 B1 C1 D1 E1]. constructor; cbn [qwr qrd fs rds putQ putR].
        * exact A1.
        * exact B1.
        * apply dropReader_nd, C1.
        * intros g r Hin. apply dropReader_in in Hin; [|exact C1]. destruct Hin as [Hin Hg].
          destruct (D1 g r Hin) as (R0 & y & o' & z & F1 & F2 & F3 & F4 & F5). split; [exact R0|].
          destruct (Nat.eq_dec o o') as [<-|Hn].
          -- exists y, o, (mkR (Some q0) fl). rewrite nth_error_upd_eq by exact L. cbn. repeat (split; [auto|]).
             rewrite Ho in F3. inversion F3; subst. apply rm_in. auto.
          -- exists y, o', z. rewrite nth_error_upd_neq by exact Hn. auto.
        * intros o' z g F1 F2 F3.
          assert (o' = o).
          { destruct (Nat.eq_dec o o') as [<-|Hn]; [reflexivity|]. rewrite nth_error_upd_neq in F1 by exact Hn.
            apply (rptrs_uniq q0 (rds n) o' o z x); auto. apply (one_reader n q0 k0 W Ek1). }
          subst o'. rewrite nth_error_upd_eq in F1 by exact L. inversion F1; subst z. cbn [rfs] in F3.
          apply rm_in in F3. destruct F3 as [F3 F4]. pose proof (E1 o x g Ho Eq F3) as G.
          apply in_map_iff in G. destruct G as ([g' r] & Eg & G). cbn in Eg. subst g'. apply in_map_iff. exists (g, r).
          split; [reflexivity|]. apply dropReader_in; auto.
      + rewrite nth_error_upd_neq in A by exact Hq. pose proof (R q k A B) as Q.
        apply (riq_keep n); [exact Q| | | |]; cbn [fs rds putQ putR].
        * eauto.
        * eauto.
        * intros g r y o' z F1 R0 F2 F3 F4 F5 F6. exists y. split; [exact F2|]. split; [exact F3|].
          rewrite nth_error_upd_neq; [exact F4|]. intros <-. rewrite Ho in F4. inversion F4; subst. congruence.
        * intros o' z F1 F2. destruct (Nat.eq_dec o o') as [<-|Hn].
          -- rewrite nth_error_upd_eq in F1 by exact L. inversion F1; subst. cbn in F2. congruence.
          -- rewrite nth_error_upd_neq in F1 by exact Hn. exact F1.
    - inversion E2; subst n2. split; [|split; reflexivity]. apply (ri_putR_none n o x); [exact R|exact Ho|]. intros q k F. congruence. }
  destruct X2 as (R2 & F2 & D2).
  assert (Hn2 : nth_error (rds n2) o = Some (mkR (rq x) fl)) by (rewrite D2; apply nth_error_upd_eq, L).
  destruct fl as [|a t] eqn:Efl.
  - apply bind_ok in H. destruct H as ([n3 b3] & E3 & H). inversion H; subst n' b3. clear H.
    destruct (ri_drop n2 (rq x) n3 b R2 E3) as (R3 & F3 & D3 & X3). split; [|split; [cbn; congruence|split]].
    + apply (ri_putR_none n3 o (mkR (rq x) [])); [exact R3|rewrite D3; exact Hn2|]. cbn [rq]. intros q k G1 G2 G3.
      destruct (X3 q k G2 G3). congruence.
    + cbn [rds putR]. rewrite nth_error_upd_eq; [|rewrite D3, D2, upd_length; exact L]. intros z Hz. inversion Hz; subst. auto.
    + intros o' Hn. cbn [rds putR]. rewrite nth_error_upd_neq by congruence. rewrite D3, D2, nth_error_upd_neq by congruence. reflexivity.
  - inversion H; subst n' b. split; [exact R2|]. split; [exact F2|]. split.
    + intros z Hz. rewrite Hn2 in Hz. inversion Hz; subst. cbn [rfs]. rewrite <- Efl. intros G. apply rm_in in G. destruct G; contradiction.
    + intros o' Hn. rewrite D2, nth_error_upd_neq by congruence. reflexivity.
Qed.

Lemma ri_release n p n' : RI n -> releaseReader n p = Ok n' -> RI n' /\ fs n' = fs n.
Proof.
  intros R H. destruct p as [o|]; cbn [releaseReader] in H; [|inversion H; subst; auto].
  destruct (referenced n o); [inversion H; subst; auto|].
  apply bind_ok in H. destruct H as (x & E & H). unfold getR in E. destruct (nth_error (rds n) o) as [x'|] eqn:Ho; [|discriminate].
  inversion E; subst x'. apply bind_ok in H. destruct H as ([n1 b] & E1 & H). inversion H; subst n'.
  destruct (ri_drop n (rq x) n1 b R E1) as (R1 & F1 & D1 & X1). split; [|cbn; exact F1].
  apply (ri_putR_none n1 o x); [exact R1|congruence|]. intros q k G1 G2 G3. destruct (X1 q k G2 G3). congruence.
Qed.

Lemma ri_setRd n f x m : RI n -> mfind f (fs n) = Some x ->
  (forall r o z q k, mfind r (frd x) = Some (Some o) -> (0 <= r)%Z -> nth_error (rds n) o = Some z -> rq z = Some q ->
     nth_error (qs n) q = Some k -> qconn k = true -> In f (rfs z) -> mfind r m = Some (Some o)) ->
  RI (putF n f (setRd x m)).
Proof.
  intros R Hf Hm q k A B. cbn in A. pose proof (R q k A B) as Q. apply (riq_keep n); [exact Q| | | |]; cbn [fs rds putF].
  - intros g y w F G. rewrite mfind_mset. destruct (Z.eqb_spec g f) as [->|]; [|eauto].
    rewrite Hf in F. inversion F; subst. eexists. split; [reflexivity|exact G].
  - intros g y w F G. rewrite mfind_mset in F. destruct (Z.eqb_spec g f) as [->|]; [|eauto]. inversion F; subst. eauto.
  - intros g r y o z F1 R0 F2 F3 F4 F5 F6. rewrite mfind_mset. destruct (Z.eqb_spec g f) as [->|]; [|eauto].
    rewrite Hf in F2. inversion F2; subst y. eexists. split; [reflexivity|]. cbn. split; [|exact F4].
    apply (Hm r o z q k F3 R0 F4 F5 A B F6).
  - auto.
Qed.
Lemma ri_setWr n f x m : RI n -> mfind f (fs n) = Some x ->
  (forall w q k, nth_error (qs n) q = Some k -> qconn k = true -> (mfind w m = Some (Some q) <-> mfind w (fwr x) = Some (Some q))) ->
  RI (putF n f (setWr x m)).
Proof.
  intros R Hf Hm q k A B. cbn in A. pose proof (R q k A B) as Q. apply (riq_keep n); [exact Q| | | |]; cbn [fs rds putF].
  - intros g y w F G. rewrite mfind_mset. destruct (Z.eqb_spec g f) as [->|]; [|eauto].
    rewrite Hf in F. inversion F; subst. eexists. split; [reflexivity|]. cbn. apply (Hm w q k A B), G.
  - intros g y w F G. rewrite mfind_mset in F. destruct (Z.eqb_spec g f) as [->|]; [|eauto]. inversion F; subst.
    exists x. split; [exact Hf|]. cbn in G. apply (Hm w q k A B), G.
  - intros g r y o z F1 R0 F2 F3 F4 F5 F6. rewrite mfind_mset. destruct (Z.eqb_spec g f) as [->|]; [|eauto].
    rewrite Hf in F2. inversion F2; subst y. eexists. split; [reflexivity|]. cbn. auto.
  - auto.
Qed.

Lemma getF_ok n f x : getF n f = Ok x -> mfind f (fs n) = Some x.
Proof. unfold getF. destruct (mfind f (fs n)); intros H; inversion H; reflexivity. Qed.

Lemma ri_deleteReader n e f r n' b : WF n -> RI n -> deleteReader n e f r = Ok (n', b) -> RI n'.
Proof.
  intros W R H. unfold deleteReader in H. apply bind_ok in H. destruct H as (x & E & H). apply getF_ok in E.
  destruct (mfind r (frd x)) as [[o|]|] eqn:Er; [|discriminate|inversion H; subst; exact R].
  apply bind_ok in H. destruct H as ([n1 b1] & E1 & H). apply bind_ok in H. destruct H as (n2 & E2 & H). inversion H; subst n2.
  destruct (ri_disc n o f n1 b1 W R E1) as (R1 & F1 & X1 & _).
  apply (fun A => proj1 (ri_release _ _ _ A E2)). apply ri_setRd; [exact R1|congruence|].
  intros r' o' z q k G1 R0 G2 G3 G4 G5 G6. rewrite mfind_mdel by apply (proj2 (wf_sorted n W) f x E).
  destruct (Z.eqb_spec r' r) as [->|]; [|exact G1]. rewrite Er in G1. inversion G1; subst o'. exfalso. apply (X1 z G2 G6).
Qed.
Lemma ri_disconnectReader n e f r n' b : WF n -> RI n -> disconnectReader n e f r = Ok (n', b) -> RI n'.
Proof.
  intros W R H. unfold disconnectReader in H. apply bind_ok in H. destruct H as (x & E & H). apply getF_ok in E.
  destruct (mfind r (frd x)) as [[o|]|] eqn:Er; [|discriminate|inversion H; subst; exact R].
  apply bind_ok in H. destruct H as ([n1 b1] & E1 & H). destruct (ri_disc n o f n1 b1 W R E1) as (R1 & _).
  destruct b1; [|inversion H; subst; exact R1].
  destruct (readerDisconnect_ok n o f W (wf_rids n W f x r o E Er)) as (n1' & b1' & E1' & W1 & _).
  rewrite E1 in E1'. inversion E1'; subst n1' b1'. apply (ri_deleteReader n1 e f r n' b W1 R1 H).
Qed.

Lemma ri_eraseWriter n f w n' : WF n -> RI n -> eraseWriter n f w = Ok n' -> RI n'.
Proof.
  intros W R H. unfold eraseWriter in H. apply bind_ok in H. destruct H as (x & E & H). apply getF_ok in E.
  destruct (mfind w (fwr x)) as [p|] eqn:Ew; [|inversion H; subst; exact R].
  apply bind_ok in H. destruct H as ([n1 b] & E1 & H). inversion H; subst n'.
  destruct (ri_drop n p n1 b R E1) as (R1 & F1 & D1 & X1). apply ri_setWr; [exact R1|congruence|].
  intros w' q k A B. destruct (X1 q k A B) as [_ Hp]. rewrite mfind_mdel by apply (proj2 (wf_sorted n W) f x E).
  destruct (Z.eqb_spec w' w) as [->|]; [|reflexivity]. rewrite Ew. split; intros G; [discriminate|congruence].
Qed.
Lemma ri_deleteWriter n e f w n' b : WF n -> RI n -> deleteWriter n e f w = Ok (n', b) -> RI n'.
Proof.
  intros W R H. unfold deleteWriter in H. apply bind_ok in H. destruct H as (x & E & H).
  destruct (mfind w (fwr x)) as [p|] eqn:Ew; [|inversion H; subst; exact R].
  apply bind_ok in H. destruct H as (n1 & E1 & H). inversion H; subst. apply (ri_eraseWriter n f w n' W R E1).
Qed.

Lemma ri_newReader n g y r : RI n -> mfind g (fs n) = Some y -> mfind r (frd y) = None ->
  RI (mkNet (mset g (setRd y (mset r (Some (length (rds n))) (frd y))) (fs n)) (rds n ++ [mkR None []]) (qs n)).
Proof.
  intros R Hg Hr q k A B. cbn in A. pose proof (R q k A B) as Q. apply (riq_keep n); [exact Q| | | |]; cbn [fs rds].
  - intros f x w F G. rewrite mfind_mset. destruct (Z.eqb_spec f g) as [->|]; [|eauto].
    rewrite Hg in F. inversion F; subst. eexists. split; [reflexivity|exact G].
  - intros f x w F G. rewrite mfind_mset in F. destruct (Z.eqb_spec f g) as [->|]; [|eauto]. inversion F; subst. eauto.
  - intros f r' x o z F1 R0 F2 F3 F4 F5 F6. assert (L : o < length (rds n)) by (apply nth_error_Some; congruence).
    rewrite nth_error_app1 by exact L. rewrite mfind_mset. destruct (Z.eqb_spec f g) as [->|]; [|eauto].
    rewrite Hg in F2. inversion F2; subst x. eexists. split; [reflexivity|]. cbn. split; [|exact F4].
    rewrite mfind_mset. destruct (Z.eqb_spec r' r); [congruence|exact F3].
  - intros o z F G. destruct (lt_dec o (length (rds n))) as [L|L].
    + rewrite nth_error_app1 in F by exact L. exact F.
    + rewrite nth_error_app2 in F by lia. destruct (o - length (rds n)) as [|[|]]; cbn in F; try discriminate.
      inversion F; subst. discriminate.
Qed.
Lemma ri_newQueue n k0 : RI n -> qconn k0 = false -> RI (mkNet (fs n) (rds n) (qs n ++ [k0])).
Proof.
  intros R C q k A B. cbn in A. assert (A' : nth_error (qs n) q = Some k).
  { destruct (lt_dec q (length (qs n))) as [L|L]; [rewrite nth_error_app1 in A by exact L; exact A|].
    rewrite nth_error_app2 in A by lia. destruct (q - length (qs n)) as [|[|]]; cbn in A; try discriminate. inversion A; subst. congruence. }
  destruct (R q k A' B) as [Q1 Q2 Q3 Q4 Q5]. constructor; assumption.
Qed.

Lemma ri_connect n e f w g r n' b : WF n -> RI n -> (0 <= r)%Z -> connect n e f w g r = Ok (n', b) -> RI n'.
Proof.
  intros W R R0 H. unfold connect in H. destruct (Z.eqb_spec f g) as [|Hfg]; [discriminate|].
  apply bind_ok in H. destruct H as (y & Hy & H). apply getF_ok in Hy.
  apply bind_ok in H. destruct H as (busy & _ & H). destruct busy; [inversion H; subst; exact R|].
  apply bind_ok in H. destruct H as ([n1 b1] & H1 & H).
  destruct (mfind f (fs n)) as [x|] eqn:Hf.
  2:{ unfold setWriter, getF in H1. rewrite Hf in H1. discriminate. }
  destruct (setWriter_ok n e f w x W Hf) as (b2 & Ew & Hw). rewrite Ew in H1. inversion H1; subst n1 b1. clear H1 Ew.
  destruct b2; cbn [negb] in H; [|inversion H; subst; exact R].
  specialize (Hw eq_refl). pose proof (wf_newWriter n f x w W Hf Hw) as W1.
  set (x1 := setWr x (mset w None (fwr x))) in *. set (n1 := putF n f x1) in *.
  assert (R1 : RI n1).
  { apply ri_setWr; [exact R|exact Hf|]. intros w' q k A B. rewrite mfind_mset. destruct (Z.eqb_spec w' w) as [->|]; [|reflexivity].
    rewrite Hw. split; discriminate. }
  assert (Hf1 : mfind f (fs n1) = Some x1) by (cbn; apply mfind_mset_eq).
  assert (Hg1 : mfind g (fs n1) = Some y) by (cbn; rewrite mfind_mset_neq by congruence; exact Hy).
  assert (Hx1 : mfind w (fwr x1) = Some None) by (cbn; apply mfind_mset_eq).
  destruct (aq e f); cbn [negb] in H.
  2:{ apply bind_ok in H. destruct H as ([n2 b2] & E2 & H). inversion H; subst. apply (ri_deleteWriter n1 e f w n' b2 W1 R1 E2). }
  set (qn := mkQ true false (f, w) [(g, r)]) in *. set (n2 := mkNet (fs n1) (rds n1) (qs n1 ++ [qn])) in *.
  assert (W2 : WF n2) by (apply wf_newQueue; [exact W1|reflexivity|reflexivity]).
  assert (R2 : RI n2) by (apply ri_newQueue; [exact R1|reflexivity]).
  apply bind_ok in H. destruct H as ([n3 oo] & H3 & H). unfold setReader in H3. unfold getF in H3. cbn [fs n2] in H3.
  rewrite Hg1 in H3. cbn [bind] in H3.
  destruct ((fmaxR y <=? length (frd y)) || mmem r (frd y)) eqn:Efull.
  { inversion H3; subst n3 oo. apply bind_ok in H. destruct H as ([n4 b4] & E4 & H). inversion H; subst.
    apply (ri_deleteWriter n2 e f w n' b4 W2 R2 E4). }
  apply orb_false_iff in Efull. destruct Efull as [_ Ef2].
  assert (Hnr : mfind r (frd y) = None) by (unfold mmem in Ef2; destruct (mfind r (frd y)); [discriminate|reflexivity]).
  destruct (rcfg e g r).
  2:{ inversion H3; subst n3 oo. apply bind_ok in H. destruct H as ([n4 b4] & E4 & H). inversion H; subst.
      refine (ri_deleteWriter _ e f w n' b4 _ _ E4).
      - apply wf_setRd; [exact W2|exact Hg1|apply msorted_mset; apply (proj2 (wf_sorted n W) g y Hy)|].
        intros r' o' G. cbn. rewrite mfind_mset in G. destruct (Z.eqb_spec r' r); [discriminate|].
        apply (wf_rids n W g y r' o' Hy G).
      - apply ri_setRd; [exact R2|exact Hg1|]. intros r' o z q k G1 _ _ _ _ _ _. rewrite mfind_mset.
        destruct (Z.eqb_spec r' r); [congruence|exact G1]. }
  injection H3 as E3 Eoo. subst oo. subst n3. cbn [rds n2 qs] in H.
  set (o := length (rds n1)) in *.
  set (n3 := mkNet (mset g (setRd y (mset r (Some o) (frd y))) (fs n1)) (rds n1 ++ [mkR None []]) (qs n1 ++ [qn])) in *.
  assert (W3 : WF n3) by (apply (wf_newReader n2 g y r W2 Hg1 Hnr)).
  assert (R3 : RI n3) by (apply (ri_newReader n2 g y r R2 Hg1 Hnr)).
  assert (Hf3 : mfind f (fs n3) = Some x1) by (cbn [n3 fs]; rewrite mfind_mset_neq by congruence; exact Hf1).
  apply bind_ok in H. destruct H as (x3 & Hx3 & H). apply getF_ok in Hx3.
  change (mfind f (fs n3) = Some x3) in Hx3. rewrite Hf3 in Hx3. inversion Hx3; subst x3. clear Hx3.
  set (q := length (qs n1)) in *.
  assert (Enq : nth_error (qs n3) q = Some qn).
  { unfold n3, q. cbn. rewrite nth_error_app2 by lia. rewrite Nat.sub_diag. reflexivity. }
  assert (Eno : nth_error (rds n3) o = Some (mkR None [])).
  { unfold n3, o. cbn. rewrite nth_error_app2 by lia. rewrite Nat.sub_diag. reflexivity. }
  assert (Lq : q < length (qs n3)) by (apply nth_error_Some; congruence).
  assert (Lo : o < length (rds n3)) by (apply nth_error_Some; congruence).
  assert (HW0 : wptrs q (fs n) + rptrs q (rds n) = 0).
  { pose proof (wf_heap n W q) as Hq. cbn beta in Hq. assert (E : nth_error (qs n) q = None) by (apply nth_error_None; unfold q; cbn; lia).
    rewrite E in Hq. exact Hq. }
  apply bind_ok in H. destruct H as (k0 & Hk0 & H). unfold getQ in Hk0. cbn [putR putF qs] in Hk0.
  change (match nth_error (qs n3) q with Some x0 => if qlive x0 then Ok x0 else Bad UseAfterFree | None => Bad UseAfterFree end = Ok k0) in Hk0. rewrite Enq in Hk0. cbn [qlive qn] in Hk0. inversion Hk0; subst k0. clear Hk0.
  inversion H; subst n' b. clear H. cbn [qwr qrd qn].
  intros q1 k1 A B. cbn [qs putQ putR putF] in A. change (nth_error (upd (qs n3) q (mkQ true true (f, w) [(g, r)])) q1 = Some k1) in A.
  destruct (Nat.eq_dec q q1) as [<-|Hq].
  - rewrite nth_error_upd_eq in A by exact Lq. inversion A; subst k1. clear A.
    constructor; cbn [qwr qrd fst snd fs rds putQ putR putF].
    + eexists. split; [apply mfind_mset_eq|]. cbn. apply mfind_mset_eq.
    + intros f' x' w' F G. change (mfind f' (mset f (setWr x1 (mset w (Some q) (fwr x1))) (fs n3)) = Some x') in F.
      rewrite mfind_mset in F. destruct (Z.eqb_spec f' f) as [->|Hn].
      * inversion F; subst x'. cbn [fwr setWr] in G. rewrite mfind_mset in G. destruct (Z.eqb_spec w' w) as [Ew'|Hw']; [subst; reflexivity|].
        exfalso. cbn in G. rewrite mfind_mset_neq in G by exact Hw'.
        pose proof (cntp_in q _ _ G). pose proof (wptrs_in q _ _ _ Hf). lia.
      * exfalso. cbn [n3 fs] in F. rewrite mfind_mset in F. destruct (Z.eqb_spec f' g) as [->|Hg'].
        -- inversion F; subst x'. cbn in G. pose proof (cntp_in q _ _ G). pose proof (wptrs_in q _ _ _ Hy). lia.
        -- cbn in F. rewrite mfind_mset_neq in F by exact Hn. pose proof (cntp_in q _ _ G). pose proof (wptrs_in q _ _ _ F). lia.
    + cbn. constructor; [intros []|constructor].
    + intros g' r' [E|[]]. inversion E; subst g' r'. split; [exact R0|].
      exists (setRd y (mset r (Some o) (frd y))), o, (mkR (Some q) [g]).
      change (mset g (setRd y (mset r (Some o) (frd y))) (fs n1)) with (fs n3).
      rewrite mfind_mset_neq by congruence. cbn [n3 fs]. rewrite mfind_mset_eq. split; [reflexivity|].
      split; [cbn; apply mfind_mset_eq|]. split; [apply nth_error_upd_eq, Lo|]. split; [reflexivity|left; reflexivity].
    + intros o' z g' F G I. change (rds n1 ++ [mkR None []]) with (rds n3) in F. destruct (Nat.eq_dec o o') as [<-|Ho].
      * rewrite nth_error_upd_eq in F by exact Lo. inversion F; subst z. cbn in I. cbn. exact I.
      * exfalso. rewrite nth_error_upd_neq in F by exact Ho. change (nth_error (rds n ++ [mkR None []]) o' = Some z) in F.
        destruct (lt_dec o' (length (rds n))) as [L|L].
        -- rewrite nth_error_app1 in F by exact L. pose proof (rptrs_in q _ _ _ F G) as P. lia.
        -- rewrite nth_error_app2 in F by lia. destruct (o' - length (rds n)) as [|[|]]; cbn in F; try discriminate. inversion F; subst. discriminate.
  - rewrite nth_error_upd_neq in A by exact Hq. pose proof (R3 q1 k1 A B) as Q.
    apply (riq_keep n3); [exact Q| | | |]; cbn [fs rds putQ putR putF];
      change (mset g (setRd y (mset r (Some o) (frd y))) (fs n1)) with (fs n3);
      change (rds n1 ++ [mkR None []]) with (rds n3).
    + intros f' x' w' F G. rewrite mfind_mset. destruct (Z.eqb_spec f' f) as [->|]; [|eauto].
      rewrite Hf3 in F. inversion F; subst x'. eexists. split; [reflexivity|]. cbn [fwr setWr]. rewrite mfind_mset.
      destruct (Z.eqb_spec w' w); [congruence|exact G].
    + intros f' x' w' F G. rewrite mfind_mset in F. destruct (Z.eqb_spec f' f) as [->|]; [|eauto].
      inversion F; subst x'. exists x1. split; [exact Hf3|]. cbn [fwr setWr] in G. rewrite mfind_mset in G.
      destruct (Z.eqb_spec w' w); [congruence|exact G].
    + intros g' r' y' o' z F1 _ F2 F3 F4 F5 F6. rewrite nth_error_upd_neq.
      2:{ intros <-. change (nth_error (rds n3) o = Some z) in F4. rewrite Eno in F4. inversion F4; subst. discriminate. }
      rewrite mfind_mset. destruct (Z.eqb_spec g' f) as [->|]; [|eauto].
      rewrite Hf3 in F2. inversion F2; subst y'. eexists. split; [reflexivity|]. auto.
    + intros o' z F G. destruct (Nat.eq_dec o o') as [<-|Ho].
      * rewrite nth_error_upd_eq in F by exact Lo. inversion F; subst z. cbn [rq] in G. injection G as G. contradiction (Hq G).
      * rewrite nth_error_upd_neq in F by exact Ho. exact F.
Qed.

Lemma connect_connected n e f w g r n' : WF n -> connect n e f w g r = Ok (n', true) -> connected n' f w g r.
Proof.
  intros W H. assert (Hfg : f <> g) by (intros ->; unfold connect in H; rewrite Z.eqb_refl in H; discriminate).
  assert (Hg : exists y, mfind g (fs n) = Some y).
  { unfold connect in H. destruct (Z.eqb_spec f g); [contradiction|]. apply bind_ok in H. destruct H as (y & Hy & _). apply getF_ok in Hy. eauto. }
  assert (Hf : exists x, mfind f (fs n) = Some x).
  { unfold connect in H. destruct (Z.eqb_spec f g); [contradiction|]. apply bind_ok in H. destruct H as (y & Hy & H).
    apply bind_ok in H. destruct H as (bb & _ & H). destruct bb; [discriminate|]. apply bind_ok in H. destruct H as ([n1 b1] & H & _).
    unfold setWriter in H. apply bind_ok in H. destruct H as (x & Hx & _). apply getF_ok in Hx. eauto. }
  destruct Hg as (y & Hy). destruct Hf as (x & Hx).
  destruct (connect_ok n e f w g r x y W Hx Hy Hfg) as (n1 & b & E & W1 & _ & _ & _ & C & _). rewrite E in H. inversion H; subst n1 b.
  destruct (C eq_refl) as (o & (y' & Y1 & Y2) & (x' & q & k & X1 & X2 & X3 & X4 & X5)).
  exists x', y', q, o, (mkR (Some q) [g]), k. repeat (split; [first [assumption|reflexivity|left; reflexivity]|]). split; [|exact X5].
  pose proof (wf_heap n' W1 q) as Q. cbn beta in Q. rewrite X4 in Q. unfold qok in Q. destruct (qlive k); [reflexivity|].
  pose proof (cntp_in q _ _ X2). pose proof (wptrs_in q _ _ _ X1). lia.
Qed.

Lemma ri_share n e f r g s n' b : WF n -> RI n -> (0 <= s)%Z -> shareReader n e f r g s = Ok (n', b) -> RI n' /\
  (b = true -> exists x o z q k, mfind f (fs n) = Some x /\ mfind r (frd x) = Some (Some o) /\ nth_error (rds n) o = Some z /\
     rq z = Some q /\ nth_error (qs n) q = Some k /\ qlive k = true /\ qconn k = true /\
     (~ In g (map fst (qrd k)) -> connected n' (fst (qwr k)) (snd (qwr k)) g s)).
Proof.
  intros W R R0 H. unfold shareReader in H. destruct (Z.eqb_spec f g) as [|Hfg]; [inversion H; subst; split; [exact R|discriminate]|].
  apply bind_ok in H. destruct H as (x & Hx & H). apply getF_ok in Hx.
  destruct (mfind r (frd x)) as [p|] eqn:Hr; [|inversion H; subst; split; [exact R|discriminate]].
  apply bind_ok in H. destruct H as (c & Hc & H). destruct c; cbn [negb] in H; [|inversion H; subst; split; [exact R|discriminate]].
  apply bind_ok in H. destruct H as (d & Hd & H). destruct d; [inversion H; subst; split; [exact R|discriminate]|].
  destruct (rcfg e g s); cbn [negb] in H; [|inversion H; subst; split; [exact R|discriminate]].
  apply bind_ok in H. destruct H as (y & Hg & H). apply getF_ok in Hg. apply bind_ok in H. destruct H as (n1 & H1 & H).
  destruct p as [o|]; [|discriminate].
  cbn [readerConnected] in Hc. apply bind_ok in Hc. destruct Hc as (z & Hz & Hc). unfold getR in Hz.
  destruct (nth_error (rds n) o) as [z'|] eqn:Eo; [|discriminate]. inversion Hz; subst z'. clear Hz.
  destruct (rq z) as [q|] eqn:Eq; cbn [ptrConnected] in Hc; [|discriminate].
  apply bind_ok in Hc. destruct Hc as (k & Hk & Hc). unfold getQ in Hk. destruct (nth_error (qs n) q) as [k'|] eqn:Ek; [|discriminate].
  destruct (qlive k') eqn:El; [|discriminate]. inversion Hk; subst k'. clear Hk. assert (Ec : qconn k = true) by congruence. clear Hc.
  assert (Hold : forall o x0 q k, mfind s (frd y) = Some (Some o) -> nth_error (rds n) o = Some x0 -> rq x0 = Some q ->
            nth_error (qs n) q = Some k -> qconn k = false).
  { intros o0 x0 q0 k0 A B C D. unfold isRConnected, getF in Hd. rewrite Hg in Hd. cbn [bind] in Hd. rewrite A in Hd.
    cbn [readerConnected] in Hd. unfold getR in Hd. rewrite B in Hd. cbn [bind] in Hd. rewrite C in Hd. cbn [ptrConnected] in Hd.
    unfold getQ in Hd. rewrite D in Hd. destruct (qlive k0); [|discriminate]. cbn in Hd. inversion Hd. reflexivity. }
  assert (RR : RI (putF n g (setRd y (mset s (Some o) (frd y))))).
  { apply ri_setRd; [exact R|exact Hg|]. intros r' o' z' q' k' G1 _ G2 G3 G4 G5 G6. rewrite mfind_mset.
    destruct (Z.eqb_spec r' s) as [->|]; [|exact G1]. rewrite (Hold o' z' q' k' G1 G2 G3 G4) in G5. discriminate. }
  destruct (ri_release _ _ n1 RR H1) as [R1 F1]. cbn [putF fs] in F1.
  refine ((fun Hh => _) (fun Hp => releaseReader_keeps _ _ n1 Hp H1)). destruct Hh as [_ K1].
  { intros o0 x0 q0 k0 A B C D. cbn [putF rds qs] in *. destruct (mfind s (frd y)) as [z0|] eqn:Es; [|discriminate]. subst z0.
    apply (Hold o0 x0 q0 k0 eq_refl B C D). }
  cbn [putF rds qs] in K1. destruct (K1 o z q k Eo Eq Ek Ec) as [Eo1 Ek1].
  apply bind_ok in H. destruct H as (z1 & Hz1 & H). unfold getR in Hz1. rewrite Eo1 in Hz1. inversion Hz1; subst z1. clear Hz1.
  rewrite Eq in H. apply bind_ok in H. destruct H as (k1 & Hk1 & H). unfold getQ in Hk1. rewrite Ek1, El in Hk1. inversion Hk1; subst k1. clear Hk1.
  rewrite Ec in H. cbn [andb] in H.
  assert (Hex : existsb (fun ab : Z * Z => (fst ab =? g)%Z) (qrd k) = true <-> In g (map fst (qrd k))).
  { rewrite existsb_exists, in_map_iff. split; intros (ab & A & B); exists ab; (split; [|]); try assumption; [apply Z.eqb_eq, B|apply Z.eqb_eq, A]. }
  assert (Lq : q < length (qs n1)) by (apply nth_error_Some; congruence).
  assert (Lo : o < length (rds n1)) by (apply nth_error_Some; congruence).
  destruct (existsb (fun ab : Z * Z => (fst ab =? g)%Z) (qrd k)) eqn:Ee; cbn [negb] in H.
  { inversion H; subst n' b. split; [exact R1|]. intros _. exists x, o, z, q, k. repeat (split; [assumption|]).
    intros N. exfalso. apply N, Hex. reflexivity. }
  inversion H; subst n' b. clear H.
  assert (Ng : ~ In g (map fst (qrd k))) by (intros G; apply Hex in G; discriminate).
  assert (Hin : forall a, In a (rfs z) -> In a (if existsb (Z.eqb g) (rfs z) then rfs z else rfs z ++ [g])).
  { intros a Ha. destruct (existsb (Z.eqb g) (rfs z)); [exact Ha|apply in_or_app; auto]. }
  assert (Hing : In g (if existsb (Z.eqb g) (rfs z) then rfs z else rfs z ++ [g])).
  { destruct (existsb (Z.eqb g) (rfs z)) eqn:E; [|apply in_or_app; right; left; reflexivity].
    apply existsb_exists in E. destruct E as (a & A & B). apply Z.eqb_eq in B. subst. exact A. }
  assert (Hout : forall a, In a (if existsb (Z.eqb g) (rfs z) then rfs z else rfs z ++ [g]) -> In a (rfs z) \/ a = g).
  { intros a. destruct (existsb (Z.eqb g) (rfs z)); [auto|]. intros Ha. apply in_app_or in Ha. destruct Ha as [|[|[]]]; auto. }
  set (fl := if existsb (Z.eqb g) (rfs z) then rfs z else rfs z ++ [g]) in *.
  pose proof (R1 q k Ek1 Ec) as [Q1 Q2 Q3 Q4 Q5].
  assert (Hy1 : exists y1, mfind g (fs n1) = Some y1 /\ mfind s (frd y1) = Some (Some o)).
  { rewrite F1, mfind_mset_eq. eexists. split; [reflexivity|]. cbn. apply mfind_mset_eq. }
  destruct Hy1 as (y1 & Y1 & Y2).
  split.
  - intros q' k' A B. cbn [qs putQ putR] in A. destruct (Nat.eq_dec q q') as [<-|Hq].
    + rewrite nth_error_upd_eq in A by exact Lq. inversion A; subst k'. constructor; cbn [qwr qrd fs rds putQ putR].
      * exact Q1.
      * exact Q2.
      * rewrite map_app. cbn.
        clear -Q3 Ng. induction (map fst (qrd k)) as [|a t IH]; cbn; [constructor; [intros []|constructor]|].
        inversion Q3; subst. constructor; [|apply IH; solve [assumption|intros G; apply Ng; right; exact G]].
        rewrite in_app_iff. intros [G|[G|[]]]; [contradiction|]. subst. apply Ng. left. reflexivity.
      * intros g' r' Hi. apply in_app_or in Hi. destruct Hi as [Hi|[Hi|[]]].
        -- destruct (Q4 g' r' Hi) as (P0 & y' & o' & z' & P1 & P2 & P3 & P4 & P5). split; [exact P0|].
           destruct (Nat.eq_dec o o') as [<-|Hn].
           ++ exists y', o, (mkR (Some q) fl). rewrite nth_error_upd_eq by exact Lo. repeat (split; [first [assumption|reflexivity]|]).
              cbn. apply Hin. rewrite Eo1 in P3. inversion P3; subst. exact P5.
           ++ exists y', o', z'. rewrite nth_error_upd_neq by exact Hn. auto.
        -- inversion Hi; subst g' r'. split; [exact R0|]. exists y1, o, (mkR (Some q) fl). rewrite nth_error_upd_eq by exact Lo. auto.
      * intros o' z' g' P1 P2 P3. rewrite map_app. apply in_or_app. destruct (Nat.eq_dec o o') as [<-|Hn].
        -- rewrite nth_error_upd_eq in P1 by exact Lo. inversion P1; subst z'. cbn [rfs] in P3. destruct (Hout g' P3) as [G| ->].
           ++ left. apply (Q5 o z g' Eo1 Eq G).
           ++ right. left. reflexivity.
        -- rewrite nth_error_upd_neq in P1 by exact Hn. left. apply (Q5 o' z' g' P1 P2 P3).
    + rewrite nth_error_upd_neq in A by exact Hq. pose proof (R1 q' k' A B) as Q. apply (riq_keep n1); [exact Q| | | |]; cbn [fs rds putQ putR].
      * eauto.
      * eauto.
      * intros g' r' y' o' z' G1 _ G2 G3 G4 G5 G6. exists y'. rewrite nth_error_upd_neq; [auto|].
        intros <-. rewrite Eo1 in G4. inversion G4; subst. congruence.
      * intros o' z' G1 G2. destruct (Nat.eq_dec o o') as [<-|Hn].
        -- rewrite nth_error_upd_eq in G1 by exact Lo. inversion G1; subst. cbn in G2. congruence.
        -- rewrite nth_error_upd_neq in G1 by exact Hn. exact G1.
  - intros _. exists x, o, z, q, k. repeat (split; [assumption|]). intros _.
    destruct Q1 as (xw & X1 & X2). exists xw, y1, q, o, (mkR (Some q) fl), (mkQ true true (qwr k) (qrd k ++ [(g, s)])).
    cbn [fs rds qs putQ putR]. rewrite !nth_error_upd_eq by assumption. repeat (split; [first [assumption|reflexivity]|]). reflexivity.
Qed.

Lemma readersValid_notin n dst : forall l, readersValid n dst l = Ok true -> ~ In dst (map fst l).
Proof.
  induction l as [|[rf rr] t IH]; cbn [readersValid map fst]; intros H; [intros []|].
  destruct (Z.eqb_spec rf dst) as [->|Hn]; cbn [orb] in H; [discriminate|].
  destruct (negb (mmem rf (fs n))); [discriminate|]. apply bind_ok in H. destruct H as (c & _ & H). destruct c; [|discriminate].
  intros [G|G]; [contradiction|apply (IH H G)].
Qed.

Lemma ri_group n e org dst ow dr n' b : WF n -> RI n -> (0 <= dr)%Z -> handleGrouping n e org dst ow dr = Ok (n', b) ->
  RI n' /\ (b = true -> connected n' org ow dst dr).
Proof.
  intros W R R0 H. unfold handleGrouping in H. apply bind_ok in H. destruct H as (x & Hx & H). apply getF_ok in Hx.
  destruct (mfind ow (fwr x)) as [p|] eqn:Hw; [|inversion H; subst; split; [exact R|discriminate]].
  apply bind_ok in H. destruct H as (c & Hc & H). destruct c; cbn [negb] in H; [|inversion H; subst; split; [exact R|discriminate]].
  destruct p as [q|]; [|discriminate Hc]. cbn [ptrConnected] in Hc. apply bind_ok in Hc. destruct Hc as (k & Hk & Hc).
  rewrite Hk in H. cbn [bind] in H. assert (Ec : qconn k = true) by congruence. clear Hc.
  unfold getQ in Hk. destruct (nth_error (qs n) q) as [k'|] eqn:Ek; [|discriminate]. destruct (qlive k') eqn:El; [|discriminate].
  inversion Hk; subst k'. clear Hk.
  apply bind_ok in H. destruct H as (v & Hv & H). destruct v; cbn [negb] in H; [|inversion H; subst; split; [exact R|discriminate]].
  assert (Nd : ~ In dst (map fst (qrd k))).
  { unfold validCData in Hv. destruct (negb (org =? fst (qwr k))%Z); [discriminate|]. apply bind_ok in Hv. destruct Hv as (v & Hv & Hv2).
    destruct v; [|discriminate]. apply (readersValid_notin n dst _ Hv). }
  pose proof (R q k Ek Ec) as [Q1 Q2 Q3 Q4 Q5]. pose proof (Q2 org x ow Hx Hw) as Eqw.
  destruct (qrd k) as [|[rf rr] t] eqn:Erd; [discriminate|].
  destruct (ri_share n e rf rr dst dr n' b W R R0 H) as [R1 C]. split; [exact R1|]. intros ->.
  destruct (C eq_refl) as (x' & o & z & q' & k' & C1 & C2 & C3 & C4 & C5 & C6 & C7 & C8).
  destruct (Q4 rf rr (or_introl eq_refl)) as (_ & y & o' & z' & D1 & D2 & D3 & D4 & D5).
  assert (E1 : x' = y) by congruence. subst x'. assert (E2 : o = o') by congruence. subst o'. assert (E3 : z = z') by congruence. subst z'.
  assert (E4 : q' = q) by congruence. subst q'. assert (E5 : k' = k) by congruence. subst k'. rewrite Eqw in C8. apply C8. rewrite Erd. exact Nd.
Qed.

Lemma gen_nonneg n e f r : generateReaderID n e f = Ok r -> (0 <= r)%Z.
Proof.
  unfold generateReaderID. intros H. apply bind_ok in H. destruct H as (x & _ & H). inversion H; subst.
  destruct (fmaxR x =? 1); [unfold DEFAULT_ID; lia|]. unfold fresh. destruct (mmem _ _); [|lia].
  assert (0 <= fold_right Z.max 0 (mkeys (frd x)))%Z; [|lia]. induction (mkeys (frd x)) as [|a t IH]; cbn; lia.
Qed.

Lemma chain_line e : forall t m n n' b, WF n -> RI n -> (forall a, In a (m :: t) -> mfind a (fs n) <> None) ->
  chain n e (m :: t) = Ok (n', b) -> RI n' /\
  (b = true -> forall n2 w g r, keepsConn n' n2 -> connected n2 (last (m :: t) 0%Z) w g r -> exists w0, line n2 m w0 t g r).
Proof.
  induction t as [|c t IH]; intros m n n' b W R Hl H.
  - cbn in H. inversion H; subst. split; [exact R|]. intros _ n2 w g r _ C. exists w. constructor. exact C.
  - change (chain n e (m :: c :: t)) with
      (bind (generateWriterID n e m) (fun w => bind (generateReaderID n e c) (fun r =>
         bind (connect n e m w c r) (fun '(n1, ok) => if ok : bool then chain n1 e (c :: t) else Ok (n1, false))))) in H.
    apply bind_ok in H. destruct H as (w0 & _ & H). apply bind_ok in H. destruct H as (r0 & Er & H).
    apply bind_ok in H. destruct H as ([n1 ok] & E1 & H).
    pose proof (ri_connect n e m w0 c r0 n1 ok W R (gen_nonneg _ _ _ _ Er) E1) as R1.
    pose proof (connect_safe n e m w0 c r0 W (Hl m (or_introl eq_refl)) (Hl c (or_intror (or_introl eq_refl)))) as S. rewrite E1 in S.
    cbn [safe fst] in S. destruct S as ((W1 & Sk1 & K1 & _) & _).
    destruct ok; [|inversion H; subst; split; [exact R1|discriminate]].
    assert (Hl1 : forall a, In a (c :: t) -> mfind a (fs n1) <> None).
    { intros a Ha. apply (present_skel n n1 a Sk1). apply Hl. right. exact Ha. }
    destruct (IH c n1 n' b W1 R1 Hl1 H) as [R2 L2]. split; [exact R2|]. intros Hb n2 w g r KK C.
    destruct (L2 Hb n2 w g r KK C) as (w1 & Ln). exists w0. apply (line_mid n2 m w0 c r0 w1 t g r); [|exact Ln].
    apply KK. pose proof (chain_safe e (c :: t) n1 W1 Hl1) as S. rewrite H in S. cbn [safe fst] in S. destruct S as (_ & _ & K2 & _).
    apply K2. apply (connect_connected n e m w0 c r0 n1 W E1).
Qed.

Lemma ri_hop n e org ow g dr r n' b : WF n -> RI n -> (0 <= dr)%Z -> (0 <= r)%Z -> mfind org (fs n) <> None -> mfind g (fs n) <> None ->
  (do (n1, ok) <- connect n e org ow g r; if ok : bool then Ok (n1, true) else handleGrouping n1 e org g ow dr) = Ok (n', b) ->
  RI n' /\ (b = true -> connected n' org ow g r \/ connected n' org ow g dr).
Proof.
  intros W R D0 R0 Ho Hg H. apply bind_ok in H. destruct H as ([n1 ok] & E1 & H).
  pose proof (ri_connect n e org ow g r n1 ok W R R0 E1) as R1.
  pose proof (connect_safe n e org ow g r W Ho Hg) as S. rewrite E1 in S. cbn [safe fst] in S. destruct S as ((W1 & _) & _).
  destruct ok.
  - inversion H; subst. split; [exact R1|]. intros _. left. apply (connect_connected n e org ow g r n' W E1).
  - destruct (ri_group n1 e org g ow dr n' b W1 R1 D0 H) as [R2 C]. split; [exact R2|]. intros Hb. right. apply C, Hb.
Qed.

Lemma ri_connectPath n e pa n' b : WF n -> RI n -> (forall f, names pa f -> mfind f (fs n) <> None) -> (0 <= pdr pa)%Z ->
  connectPath n e pa = Ok (n', b) ->
  RI n' /\ (b = true -> line n' (porg pa) (pow pa) (pmid pa) (pdst pa) (pdr pa)).
Proof.
  intros W R Hn D0 H. unfold connectPath in H. destruct (negb _); [inversion H; subst; split; [exact R|discriminate]|].
  destruct (pmid pa) as [|m t] eqn:Em.
  - destruct (ri_hop n e (porg pa) (pow pa) (pdst pa) (pdr pa) (pdr pa) n' b W R D0 D0) as [R1 C]; auto.
    { apply Hn. left. reflexivity. } { apply Hn. right. left. reflexivity. }
    split; [exact R1|]. intros Hb. apply line_last. destruct (C Hb); assumption.
  - apply bind_ok in H. destruct H as (r & Er & H). apply bind_ok in H. destruct H as ([n1 ok] & E1 & H).
    apply bind_ok in H. destruct H as ([n2 ok2] & E2 & H).
    assert (Hm : mfind m (fs n) <> None) by (apply Hn; right; right; rewrite Em; left; reflexivity).
    assert (Ho : mfind (porg pa) (fs n) <> None) by (apply Hn; left; reflexivity).
    assert (E12 : (do (n1, ok) <- connect n e (porg pa) (pow pa) m r; if ok : bool then Ok (n1, true) else handleGrouping n1 e (porg pa) m (pow pa) DEFAULT_ID) = Ok (n2, ok2)).
    { rewrite E1. exact E2. }
    destruct (ri_hop n e (porg pa) (pow pa) m DEFAULT_ID r n2 ok2 W R) as [R2 C2]; auto.
    { unfold DEFAULT_ID. lia. } { apply (gen_nonneg _ _ _ _ Er). }
    pose proof (first_hop n e pa m DEFAULT_ID r W Ho Hm) as S. rewrite E12 in S. cbn [safe fst] in S. destruct S as (W2 & Sk2 & K2 & _).
    destruct ok2; cbn [negb] in H; [|inversion H; subst; split; [exact R2|discriminate]].
    apply bind_ok in H. destruct H as ([n3 ok3] & E3 & H).
    assert (Hl : forall a, In a (m :: t) -> mfind a (fs n2) <> None).
    { intros a Ha. apply (present_skel n n2 a Sk2). apply Hn. right. right. rewrite Em. exact Ha. }
    destruct (chain_line e t m n2 n3 ok3 W2 R2 Hl E3) as [R3 L3].
    pose proof (chain_safe e (m :: t) n2 W2 Hl) as S. rewrite E3 in S. cbn [safe fst] in S. destruct S as (W3 & Sk3 & K3 & _).
    destruct ok3; cbn [negb] in H; [|inversion H; subst; split; [exact R3|discriminate]].
    apply bind_ok in H. destruct H as (w & _ & H).
    split; [apply (ri_connect _ _ _ _ _ _ _ _ W3 R3 D0 H)|]. intros ->.
    assert (K4 : keepsConn n3 n').
    { destruct (connect_grows _ _ _ _ _ _ _ _ W3 H) as [G _]. exact (grows_connected _ _ G). }
    destruct (L3 eq_refl n' w (pdst pa) (pdr pa) K4 (connect_connected _ _ _ _ _ _ _ W3 H)) as (w0 & Ln).
    destruct (C2 eq_refl) as [C|C]; (eapply line_mid; [|exact Ln]); apply K4, K3; exact C.
Qed.

(** ** Deleting things. *)
Lemma ri_dropReaders f : forall l n n', WF n -> RI n -> (forall k o, In (k, Some o) l -> o < length (rds n)) ->
  dropReaders n f l = Ok n' -> RI n' /\ fs n' = fs n /\
  (forall k o z, (0 <= k)%Z -> In (k, Some o) l -> nth_error (rds n') o = Some z -> ~ In f (rfs z)) /\
  (forall o z', nth_error (rds n') o = Some z' -> In f (rfs z') -> exists z, nth_error (rds n) o = Some z /\ In f (rfs z)).
Proof.
  induction l as [|[k [o|]] t IH]; intros n n' W R Hl H; cbn [dropReaders] in H.
  - inversion H; subst. split; [exact R|]. split; [reflexivity|]. split; [contradiction|]. eauto.
  - destruct (Z.leb_spec 0 k) as [K|K].
    + apply bind_ok in H. destruct H as ([n1 b] & E1 & H). destruct (ri_disc n o f n1 b W R E1) as (R1 & F1 & X1 & Y1).
      destruct (readerDisconnect_ok n o f W (Hl k o (or_introl eq_refl))) as (n1' & b' & E1' & W1 & _ & L1). rewrite E1 in E1'. inversion E1'; subst n1' b'.
      destruct (IH n1 n' W1 R1) as (R2 & F2 & X2 & Y2); [intros k' o' Hi; rewrite L1; apply (Hl k' o'); right; exact Hi|exact H|].
      assert (Z1 : forall o' z', nth_error (rds n1) o' = Some z' -> In f (rfs z') -> exists z, nth_error (rds n) o' = Some z /\ In f (rfs z)).
      { intros o' z' A B. destruct (Nat.eq_dec o' o) as [->|Hn]; [contradiction (X1 z' A B)|]. rewrite Y1 in A by exact Hn. eauto. }
      split; [exact R2|]. split; [congruence|]. split.
      * intros k' o' z K' [Hi|Hi] Hz Hin; [|apply (X2 k' o' z K' Hi Hz Hin)]. inversion Hi; subst k' o'.
        destruct (Y2 o z Hz Hin) as (z1 & A & B). apply (X1 z1 A B).
      * intros o' z' A B. destruct (Y2 o' z' A B) as (z1 & C & D). apply (Z1 o' z1 C D).
    + destruct (IH n n' W R) as (R2 & F2 & X2 & Y2); [intros k' o' Hi; apply (Hl k' o'); right; exact Hi|exact H|].
      split; [exact R2|]. split; [exact F2|]. split; [|exact Y2].
      intros k' o' z K' [Hi|Hi] Hz Hin; [inversion Hi; subst; lia|apply (X2 k' o' z K' Hi Hz Hin)].
  - destruct (IH n n' W R) as (R2 & F2 & X2 & Y2); [intros k' o' Hi; apply (Hl k' o'); right; exact Hi|exact H|].
    split; [exact R2|]. split; [exact F2|]. split; [|exact Y2].
    intros k' o' z K' [Hi|Hi] Hz Hin; [discriminate|apply (X2 k' o' z K' Hi Hz Hin)].
Qed.
Lemma ri_clearReaders : forall l n n', RI n -> clearReaders n l = Ok n' -> RI n'.
Proof.
  induction l as [|[k p] t IH]; intros n n' R H; cbn [clearReaders] in H; [inversion H; subst; exact R|].
  apply bind_ok in H. destruct H as (n1 & E1 & H). apply (IH n1 n' (proj1 (ri_release n p n1 R E1)) H).
Qed.
Lemma ri_clearWriters f : forall m n n' x, WF n -> RI n -> mfind f (fs n) = Some x -> fwr x = m ->
  clearWriters n f (mkeys m) = Ok n' -> RI n'.
Proof.
  induction m as [|[w p] t IH]; intros n n' x W R Hf E H; cbn [mkeys map clearWriters fst] in H; [inversion H; subst; exact R|].
  assert (Hw : mfind w (fwr x) = Some p) by (rewrite E; cbn; rewrite Z.eqb_refl; reflexivity).
  apply bind_ok in H. destruct H as (n1 & E1 & H). pose proof (ri_eraseWriter n f w n1 W R E1) as R1.
  destruct (eraseWriter_ok n f w x p W Hf Hw) as (n1' & E1' & W1 & _ & F1). rewrite E1 in E1'. inversion E1'; subst n1'.
  assert (Hd : mdel w (fwr x) = t) by (rewrite E; cbn; rewrite Z.eqb_refl; reflexivity). rewrite Hd in F1.
  apply (IH n1 n' (setWr x t) W1 R1); [rewrite F1; apply mfind_mset_eq|reflexivity|exact H].
Qed.

Lemma ri_destroy n f n' : WF n -> RI n -> destroyFilter n f = Ok n' -> RI n'.
Proof.
  intros W R H. unfold destroyFilter in H. apply bind_ok in H. destruct H as (x & Hf & H). apply getF_ok in Hf.
  assert (S := wf_sorted n W). destruct (proj2 S f x Hf) as [Sr Sw].
  assert (Hl : forall k o, In (k, Some o) (frd x) -> o < length (rds n)).
  { intros k o G. apply (wf_rids n W f x k o Hf). apply (In_mfind (frd x) None); assumption. }
  apply bind_ok in H. destruct H as (n1 & E1 & H).
  destruct (ri_dropReaders f (frd x) n n1 W R Hl E1) as (R1 & F1 & X1 & _).
  destruct (dropReaders_ok n f (frd x) W Hl) as (n1' & E1' & W1 & _ & L1). rewrite E1 in E1'. inversion E1'; subst n1'. clear E1'.
  assert (Hf1 : mfind f (fs n1) = Some x) by congruence.
  assert (W2 : WF (putF n1 f (setRd x []))).
  { apply wf_setRd; [exact W1|exact Hf1|exact I|]. intros r o G. discriminate. }
  assert (R2 : RI (putF n1 f (setRd x []))).
  { apply ri_setRd; [exact R1|exact Hf1|]. intros r o z q k G1 R0 G2 G3 G4 G5 G6. exfalso.
    apply (X1 r o z R0 (mfind_In _ _ _ G1) G2 G6). }
  apply bind_ok in H. destruct H as (n2 & E2 & H). pose proof (ri_clearReaders _ _ _ R2 E2) as R3.
  destruct (clearReaders_ok (putF n1 f (setRd x [])) (frd x) W2) as (n2' & E2' & W3 & F2 & _); [cbn; rewrite L1; exact Hl|].
  rewrite E2 in E2'. inversion E2'; subst n2'. clear E2'.
  assert (Hf2 : mfind f (fs n2) = Some (setRd x [])) by (rewrite F2; cbn; apply mfind_mset_eq).
  apply bind_ok in H. destruct H as (n3 & E3 & H). inversion H; subst n'. clear H.
  pose proof (ri_clearWriters f (fwr x) n2 n3 (setRd x []) W3 R3 Hf2 eq_refl E3) as R4.
  destruct (clearWriters_ok f (fwr x) n2 (setRd x []) W3 Hf2 eq_refl) as (n3' & E3' & W4 & _ & F3). rewrite E3 in E3'. inversion E3'; subst n3'. clear E3'.
  assert (Hf3 : mfind f (fs n3) = Some (setWr (setRd x []) [])) by (rewrite F3; apply mfind_mset_eq).
  pose proof (proj1 (wf_sorted n3 W4)) as S4.
  intros q k A B. cbn in A. pose proof (R4 q k A B) as Q. apply (riq_keep n3); [exact Q| | | |]; cbn [fs rds].
  - intros g y w G1 G2. rewrite mfind_mdel by exact S4. destruct (Z.eqb_spec g f) as [->|]; [|eauto].
    rewrite Hf3 in G1. inversion G1; subst y. discriminate.
  - intros g y w G1 G2. rewrite mfind_mdel in G1 by exact S4. destruct (Z.eqb_spec g f) as [->|]; [discriminate|eauto].
  - intros g r y o z G1 R0 G2 G3 G4 G5 G6. rewrite mfind_mdel by exact S4. destruct (Z.eqb_spec g f) as [->|]; [|eauto].
    rewrite Hf3 in G2. inversion G2; subst y. discriminate.
  - auto.
Qed.

Lemma ri_sweepW e f : forall ws n n', WF n -> RI n -> sweepWriters n e f ws = Ok n' -> RI n'.
Proof.
  induction ws as [|w t IH]; intros n n' W R H; cbn [sweepWriters] in H; [inversion H; subst; exact R|].
  apply bind_ok in H. destruct H as (x & Hf & H). apply getF_ok in Hf.
  destruct (mfind w (fwr x)) as [p|] eqn:Hw; [|apply (IH n n' W R H)].
  apply bind_ok in H. destruct H as (c & Hc & H). destruct c; [apply (IH n n' W R H)|].
  apply bind_ok in H. destruct H as ([n1 b] & E1 & H). apply bind_ok in H. destruct H as ([n3 b3] & E3 & H).
  destruct (ri_drop n p n1 b R E1) as (R1 & F1 & D1 & X1).
  destruct (drop_writer n f x w p (mset w None (fwr x)) W Hf Hw) as (n1' & E1' & _ & _ & W1).
  { apply msorted_mset. apply (proj2 (wf_sorted n W) f x Hf). }
  { intros q. pose proof (cntp_mset q (fwr x) None w None (proj2 (proj2 (wf_sorted n W) f x Hf))) as C. rewrite Hw in C. cbn in *. lia. }
  rewrite E1 in E1'. inversion E1'; subst n1'. clear E1'.
  assert (R2 : RI (putF n1 f (setWr x (mset w None (fwr x))))).
  { apply ri_setWr; [exact R1|congruence|]. intros w' q k A B. destruct (X1 q k A B) as [_ Hp]. rewrite mfind_mset.
    destruct (Z.eqb_spec w' w) as [->|]; [|reflexivity]. rewrite Hw. split; intros G; [discriminate|congruence]. }
  pose proof (ri_deleteWriter _ _ _ _ _ _ W1 R2 E3) as R3.
  destruct (deleteWriter_ok _ e f w _ W1 ltac:(cbn; apply mfind_mset_eq)) as (n3' & b3' & E3' & W3 & _). rewrite E3 in E3'. inversion E3'; subst.
  apply (IH n3' n' W3 R3 H).
Qed.
Lemma ri_sweepR e f timed : forall rs n n', WF n -> RI n -> sweepReaders n e f timed rs = Ok n' -> RI n'.
Proof.
  induction rs as [|r t IH]; intros n n' W R H; cbn [sweepReaders] in H; [inversion H; subst; exact R|].
  apply bind_ok in H. destruct H as (x & Hf & H). apply getF_ok in Hf.
  destruct (mfind r (frd x)) as [[o|]|] eqn:Hr; [|destruct timed; [discriminate|apply (IH n n' W R H)]|apply (IH n n' W R H)].
  apply bind_ok in H. destruct H as (c & Hc & H). destruct c; [apply (IH n n' W R H)|].
  apply bind_ok in H. destruct H as ([n1 b] & E1 & H). pose proof (ri_deleteReader n e f r n1 b W R E1) as R1.
  destruct (deleteReader_ok n e f r x W Hf) as (n1' & b' & E1' & W1 & _); [congruence|]. rewrite E1 in E1'. inversion E1'; subst.
  apply (IH n1' n' W1 R1 H).
Qed.

(** ** Commands. *)
Lemma ri_dropFilter p f p' : PI p -> dropFilter p f = Ok p' -> RI (pnet p) -> RI (pnet p').
Proof.
  intros PIp H R. unfold dropFilter in H. destruct (negb (ppool p)); [discriminate|].
  destruct (mfind f (pfilters p)) as [x|]; [|inversion H; subst; exact R]. destruct (existsb _ _); [discriminate|].
  apply bind_ok in H. destruct H as (n & E & H). inversion H; subst. apply (ri_destroy (pnet p) f n (pi_wf p PIp) R E).
Qed.
(** An input that a filter no longer has. *)
Definition norid (n : net) (g r : Z) : Prop := forall y, mfind g (fs n) = Some y -> mfind r (frd y) = None.
Lemma norid_disc n e f r0 n' b g r : WF n -> disconnectReader n e f r0 = Ok (n', b) -> norid n g r -> norid n' g r.
Proof.
  intros W H N. assert (exists x, mfind f (fs n) = Some x /\ mfind r0 (frd x) <> Some None) as (x & Hf & Hr).
  { unfold disconnectReader in H. apply bind_ok in H. destruct H as (x & Hf & H). apply getF_ok in Hf. exists x. split; [exact Hf|].
    destruct (mfind r0 (frd x)) as [[o|]|]; discriminate. }
  destruct (disconnectReader_ok n e f r0 x W Hf Hr) as (n1 & b1 & E & _ & _ & F). rewrite E in H. inversion H; subst n1 b1.
  destruct F as [F|F]; intros y Hy; rewrite F in Hy; [apply (N y Hy)|]. rewrite mfind_mset in Hy.
  destruct (Z.eqb_spec g f) as [->|]; [|apply (N y Hy)]. inversion Hy; subst. cbn.
  rewrite mfind_mdel by apply (proj2 (wf_sorted n W) f x Hf). destruct (r =? r0)%Z; [reflexivity|apply (N x Hf)].
Qed.
Lemma norid_mdel n n' f g r : WF n -> fs n' = mdel f (fs n) -> norid n g r -> norid n' g r.
Proof.
  intros W E N y Hy. rewrite E, mfind_mdel in Hy by apply (wf_sorted n W). destruct (g =? f)%Z; [discriminate|apply (N y Hy)].
Qed.
Lemma norid_gone n e g r n' : WF n -> disconnectReader n e g r = Ok (n', true) -> norid n' g r.
Proof.
  intros W H. unfold disconnectReader in H. apply bind_ok in H. destruct H as (x & Hf & H). apply getF_ok in Hf.
  destruct (mfind r (frd x)) as [[o|]|] eqn:Hr; [|discriminate|].
  - apply bind_ok in H. destruct H as ([n1 b1] & E1 & H). destruct b1; [|discriminate].
    destruct (readerDisconnect_ok n o g W (wf_rids n W g x r o Hf Hr)) as (n1' & b1' & E1' & W1 & F1 & _). rewrite E1 in E1'. inversion E1'; subst n1' b1'.
    destruct (deleteReader_ok n1 e g r x W1) as (n2 & b2 & E2 & W2 & _ & F2); [congruence|congruence|]. rewrite E2 in H. inversion H; subst n2 b2.
    rewrite Hr in F2. intros y Hy. rewrite F2, mfind_mset_eq in Hy. inversion Hy; subst. cbn.
    rewrite mfind_mdel by apply (proj2 (wf_sorted n W) g x Hf). rewrite Z.eqb_refl. reflexivity.
  - inversion H; subst. intros y Hy. congruence.
Qed.

Lemma ri_dropMids e : forall l p p', PI p -> ppool p = true -> dropMids p e l = Ok p' -> RI (pnet p) ->
  RI (pnet p') /\ (forall g r, norid (pnet p) g r -> norid (pnet p') g r).
Proof.
  induction l as [|m t IH]; intros p p' PIp Hp H R; cbn [dropMids] in H; [inversion H; subst; auto|].
  apply bind_ok in H. destruct H as ([n b] & H1 & H). apply bind_ok in H. destruct H as (p1 & H2 & H).
  destruct (mfind m (pfilters p)) as [x|] eqn:Hm; [|rewrite disc_none in H1 by exact Hm; discriminate].
  pose proof (disc_case (pnet p) e m DEFAULT_ID x (pi_wf p PIp) Hm) as S. rewrite H1 in S. cbn in S. destruct S as (W & Sk & Sh).
  pose proof (pi_withNet p n PIp W Sk) as PI1. destruct (dropFilter_ok (withNet p n) m PI1 Hp) as (p1' & E1 & PI2 & Hp2 & _ & _ & Ef & _).
  rewrite H2 in E1. inversion E1; subst p1'. clear E1.
  pose proof (ri_disconnectReader (pnet p) e m DEFAULT_ID n b (pi_wf p PIp) R H1) as R1.
  destruct (IH p1 p' PI2 Hp2 H) as [R2 N2]; [apply (ri_dropFilter (withNet p n) m p1 PI1 H2 R1)|]. split; [exact R2|].
  intros g r N. apply N2. apply (norid_mdel n (pnet p1) m g r W Ef). apply (norid_disc (pnet p) e m DEFAULT_ID n b g r (pi_wf p PIp) H1 N).
Qed.

Lemma ri_deletePath p e id p' b : PI p -> deletePath p e id = Ok (p', b) -> RI (pnet p) ->
  RI (pnet p') /\ (b = true -> forall pa, mfind id (ppaths p) = Some pa -> norid (pnet p') (pdst pa) (pdr pa)).
Proof.
  intros PIp H R. unfold deletePath in H. destruct (mfind id (ppaths p)) as [pa|] eqn:Hid; [|inversion H; subst; split; [exact R|discriminate]].
  destruct (negb (pathLive p pa)); [discriminate|].
  destruct (negb (mmem (porg pa) (pfilters p)) || negb (mmem (pdst pa) (pfilters p))) eqn:Eod; [inversion H; subst; split; [exact R|discriminate]|].
  destruct (negb (forallb _ _)); [inversion H; subst; split; [exact R|discriminate]|].
  apply orb_false_iff in Eod. destruct Eod as [_ Ed]. apply negb_false_iff in Ed. unfold mmem in Ed.
  destruct (mfind (pdst pa) (pfilters p)) as [xd|] eqn:Hd; [|discriminate].
  assert (Hp : ppool p = true) by (apply (pi_pool p PIp); intros E; rewrite E in Hd; discriminate).
  pose proof (disc_case (pnet p) e (pdst pa) (pdr pa) xd (pi_wf p PIp) Hd) as S.
  apply bind_ok in H. destruct H as ([n1 ok] & E & H). rewrite E in S. cbn in S. destruct S as (W1 & Sk1 & _).
  pose proof (ri_disconnectReader _ _ _ _ _ _ (pi_wf p PIp) R E) as R1.
  destruct ok; cbn [negb] in H; [|inversion H; subst; split; [exact R1|discriminate]].
  pose proof (norid_gone _ _ _ _ _ (pi_wf p PIp) E) as N1.
  pose proof (pi_withNet p n1 PIp W1 Sk1) as PI1.
  apply bind_ok in H. destruct H as (p2 & E2 & H).
  pose proof (dropMids_safe (withNet p n1) e (rev (pmid pa)) PI1 Hp) as S2. rewrite E2 in S2. destruct S2 as (PI2 & [K1 K2 K3 K4] & _). cbn in K3.
  destruct (ri_dropMids e _ _ _ PI1 Hp E2 R1) as [R2 N2]. specialize (N2 _ _ N1).
  apply bind_ok in H. destruct H as (uo & _ & H). apply bind_ok in H. destruct H as (ud & _ & H).
  apply bind_ok in H. destruct H as (p3 & E3 & H). apply bind_ok in H. destruct H as (p4 & E4 & H). inversion H; subst. cbn [pnet].
  destruct (maybe_drop p2 ud (pdst pa) PI2) as (p3' & E3' & PI3 & [M1 M2 M3 M4] & _); [congruence|].
  rewrite E3 in E3'. inversion E3'; subst p3'.
  assert (X3 : RI (pnet p3) /\ norid (pnet p3) (pdst pa) (pdr pa)).
  { destruct ud; [inversion E3; subst; auto|]. split; [apply (ri_dropFilter p2 (pdst pa) p3 PI2 E3 R2)|].
    destruct (dropFilter_ok p2 (pdst pa) PI2 ltac:(congruence)) as (p3' & F & _ & _ & _ & _ & Ef & _). rewrite E3 in F. inversion F; subst p3'.
    apply (norid_mdel (pnet p2) (pnet p3) (pdst pa) _ _ (pi_wf p2 PI2) Ef N2). }
  destruct X3 as [R3 N3].
  assert (X4 : RI (pnet p4) /\ norid (pnet p4) (pdst pa) (pdr pa)).
  { destruct uo; [inversion E4; subst; auto|]. split; [apply (ri_dropFilter p3 (porg pa) p4 PI3 E4 R3)|].
    destruct (dropFilter_ok p3 (porg pa) PI3 ltac:(congruence)) as (p4' & F & _ & _ & _ & _ & Ef & _). rewrite E4 in F. inversion F; subst p4'.
    apply (norid_mdel (pnet p3) (pnet p4) (porg pa) _ _ (pi_wf p3 PI3) Ef N3). }
  split; [apply X4|]. intros _ pa' Hpa. inversion Hpa; subst pa'. apply X4.
Qed.

Lemma ri_stopPaths e l : forall p p' b, PI p -> stopPaths p e l = Ok (p', b) -> RI (pnet p) -> RI (pnet p').
Proof.
  induction l as [|i t IH]; intros p p' b PIp H R; cbn [stopPaths] in H; [inversion H; subst; exact R|].
  apply bind_ok in H. destruct H as ([p1 ok] & H1 & H). destruct (ri_deletePath p e i p1 ok PIp H1 R) as [R1 _].
  pose proof (deletePath_safe p e i PIp) as S. rewrite H1 in S. destruct S as (PI1 & _).
  destruct ok; [apply (IH p1 p' b PI1 H R1)|inversion H; subst; exact R1].
Qed.
Lemma ri_stopFilters : forall l p p', PI p -> ppool p = true -> stopFilters p l = Ok p' -> RI (pnet p) -> RI (pnet p').
Proof.
  induction l as [|a t IH]; intros p p' PIp Hp H R; cbn [stopFilters] in H; [inversion H; subst; exact R|].
  apply bind_ok in H. destruct H as (p1 & H1 & H). destruct (dropFilter_ok p a PIp Hp) as (p1' & E1 & B1 & B2 & _). rewrite H1 in E1. inversion E1; subst p1'.
  apply (IH p1 p' B1 B2 H). apply (ri_dropFilter p a p1 PIp H1 R).
Qed.

Lemma createPath_ids p e id org dst ow dr mids p' : createPath p e id org dst ow dr mids = Ok (p', true) ->
  exists pa, mfind id (ppaths p') = Some pa /\ (0 <= pdr pa)%Z /\ ((0 <= ow)%Z -> pow pa = ow) /\ ((0 <= dr)%Z -> pdr pa = dr).
Proof.
  unfold createPath. intros H. destruct (mmem id (ppaths p)); [discriminate|]. destruct (negb _); [discriminate|]. destruct (negb _); [discriminate|].
  destruct (existsb _ mids); [discriminate|]. destruct (dup mids); [discriminate|].
  apply bind_ok in H. destruct H as (ow' & E1 & H). apply bind_ok in H. destruct H as (dr' & E2 & H). inversion H; subst. cbn [ppaths].
  rewrite mfind_mset_eq. eexists. split; [reflexivity|]. cbn [pow pdr]. split; [|split].
  - destruct (Z.ltb_spec dr 0); [apply (gen_nonneg _ _ _ _ E2)|inversion E2; subst; lia].
  - intros L. destruct (Z.ltb_spec ow 0); [lia|congruence].
  - intros L. destruct (Z.ltb_spec dr 0); [lia|congruence].
Qed.

Lemma ri_createPathEvent p e id org dst ow dr mids p' b : PI p -> RI (pnet p) -> createPathEvent p e id org dst ow dr mids = Ok (p', b) ->
  RI (pnet p') /\ (b = true -> exists pa, mfind id (ppaths p') = Some pa /\ porg pa = org /\ pdst pa = dst /\ pmid pa = mids /\
     ((0 <= ow)%Z -> pow pa = ow) /\ ((0 <= dr)%Z -> pdr pa = dr) /\
     line (pnet p') org (pow pa) mids dst (pdr pa)).
Proof.
  intros PIp R H. unfold createPathEvent in H. destruct (createPath_ok p e id org dst ow dr mids) as (p1 & c & E & F1 & F2). rewrite E in H. cbn [bind] in H.
  destruct c; cbn [negb] in H; [|inversion H; subst; split; [rewrite (F1 eq_refl); exact R|discriminate]].
  destruct (createPath_ids _ _ _ _ _ _ _ _ _ E) as (pa' & I1 & I2 & I3 & I4).
  destruct (F2 eq_refl) as (pa & (A1 & A2 & A3 & A4 & A5 & A6 & A7) & -> & _). cbn [ppaths] in *. rewrite mfind_mset_eq in H, I1. inversion I1; subst pa'.
  cbn [pnet] in H. apply bind_ok in H. destruct H as ([n ok] & E2 & H). inversion H; subst p' b.
  destruct (ri_connectPath (pnet p) e pa n ok (pi_wf p PIp) R A6 I2 E2) as [R1 L]. split; [exact R1|]. intros Hok.
  exists pa. cbn [ppaths withNet pnet]. split; [apply mfind_mset_eq|]. repeat (split; [assumption|]).
  specialize (L Hok). rewrite A2, A3, A4 in L. exact L.
Qed.

Lemma cmd_ri p e c p' a : PI p -> RI (pnet p) -> pcmd p e c = Ok (p', a) -> RI (pnet p').
Proof.
  intros PIp R H. destruct c as [id t made|id org dst ow dr mids|id|f| |f|f timed]; cbn [pcmd] in H.
  - inversion H as [H1]. unfold createFilter in H1. destruct ((id <? 0)%Z || mmem id (pfilters p)) eqn:Em; [inversion H1; subst; exact R|].
    apply orb_false_iff in Em. destruct Em as [_ Em]. unfold mmem in Em. destruct (mfind id (pfilters p)) eqn:Hid; [discriminate|].
    assert (G : forall x, fwr x = [] -> frd x = [] -> RI (mkNet (mset id x (fs (pnet p))) (rds (pnet p)) (qs (pnet p)))).
    { intros x E1 E2 q k A B. cbn in A. apply (riq_keep (pnet p)); [apply (R q k A B)| | | |]; cbn [fs rds].
      - intros f y w G1 G2. rewrite mfind_mset_neq; [eauto|]. intros ->. unfold pfilters in Hid. congruence.
      - intros f y w G1 G2. rewrite mfind_mset in G1. destruct (f =? id)%Z; [inversion G1; subst; rewrite E1 in G2; discriminate|eauto].
      - intros g r y o z G1 _ G2 G3 G4 _ _. rewrite mfind_mset_neq; [eauto|]. intros ->. unfold pfilters in Hid. congruence.
      - auto. }
    destruct t; try (destruct made; inversion H1; subst; try exact R; apply G; reflexivity).
  - apply (proj1 (ri_createPathEvent p e id org dst ow dr mids p' a PIp R H)).
  - unfold removePath in H. destruct (negb _); [inversion H; subst; exact R|]. apply bind_ok in H. destruct H as ([p1 ok] & H1 & H).
    destruct (ri_deletePath p e id p1 ok PIp H1 R) as [R1 _]. destruct ok; inversion H; subst; exact R1.
  - unfold removeFilter in H. destruct (mfind f (pfilters p)) as [x|] eqn:Hf; [|inversion H; subst; exact R].
    apply bind_ok in H. destruct H as (u & _ & H). destruct u; [inversion H; subst; exact R|].
    apply bind_ok in H. destruct H as (p1 & H1 & H). inversion H; subst. apply (ri_dropFilter p f p' PIp H1 R).
  - unfold stop in H. destruct (ppool p) eqn:Hp; cbn [negb] in H; [|inversion H; subst; exact R].
    apply bind_ok in H. destruct H as ([p1 ok] & H1 & H). pose proof (ri_stopPaths e _ _ _ _ PIp H1 R) as R1.
    pose proof (stopPaths_safe e (mkeys (ppaths p)) p PIp) as S. rewrite H1 in S. destruct S as (PI1 & _ & _ & Ep & _).
    destruct ok; cbn [negb] in H; [|inversion H; subst; exact R1]. apply bind_ok in H. destruct H as (p3 & E3 & H). inversion H; subst. cbn [pnet].
    refine (ri_stopFilters _ _ p3 _ _ E3 _); [apply pi_nopaths, PI1|cbn; congruence|exact R1].
  - destruct (mfind f (pfilters p)) as [x|] eqn:Hf; [|inversion H; subst; exact R].
    apply bind_ok in H. destruct H as (n & E & H). inversion H; subst. apply (ri_sweepW e f _ _ _ (pi_wf p PIp) R E).
  - destruct (mfind f (pfilters p)) as [x|] eqn:Hf; [|inversion H; subst; exact R].
    apply bind_ok in H. destruct H as (n & E & H). inversion H; subst. apply (ri_sweepR e f timed _ _ _ (pi_wf p PIp) R E).
Qed.

Lemma ri_hist p h : phist p h -> RI (pnet p).
Proof.
  induction 1 as [|p h e c p' a Hh IH Hc]; [intros q k A; destruct q; discriminate|].
  apply (cmd_ri p e c p' a); auto. apply (phist_inv p h Hh).
Qed.
