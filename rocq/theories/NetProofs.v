From Verif Require Import Base ZMap NetModel.

Lemma bind_ok {A B} (x : res A) (f : A -> res B) y : bind x f = Ok y -> exists a, x = Ok a /\ f a = Ok y.
Proof. destruct x as [a|b]; cbn; intros H; [eauto|discriminate]. Qed.

(** Outcomes other than touching or deleting a dead queue. *)
Definition safe {A} (r : res A) (P : A -> Prop) : Prop :=
  match r with
  | Ok a => P a
  | Bad NullDeref | Bad Deadlock => True
  | Bad _ => False
  end.

Lemma safe_bind {A B} (r : res A) (f : A -> res B) (P : A -> Prop) (Q : B -> Prop) :
  safe r P -> (forall a, r = Ok a -> P a -> safe (f a) Q) -> safe (bind r f) Q.
Proof. destruct r as [a|b]; cbn; [auto|]. destruct b; auto. Qed.

(** ** Counting pointers to a queue. *)
Definition isq (q : nat) (p : option nat) : nat := match p with Some q' => if q' =? q then 1 else 0 | None => 0 end.
Fixpoint cntp (q : nat) (m : zmap (option nat)) : nat :=
  match m with [] => 0 | (_, p) :: t => isq q p + cntp q t end.
Fixpoint wptrs (q : nat) (m : zmap filt) : nat :=
  match m with [] => 0 | (_, x) :: t => cntp q (fwr x) + wptrs q t end.
Fixpoint rptrs (q : nat) (l : list readero) : nat :=
  match l with [] => 0 | r :: t => isq q (rq r) + rptrs q t end.

Lemma cntp_mset q m : forall lo k v, sorted_from lo m ->
  cntp q (mset k v m) + match mfind k m with Some p => isq q p | None => 0 end = cntp q m + isq q v.
Proof.
  induction m as [|[k' v'] t IH]; intros lo k v H; cbn [mset mfind cntp]; [lia|].
  destruct (Z.eqb_spec k k') as [->|Hk]; cbn [cntp]; [lia|].
  destruct H as [H1 H2]. destruct (Z.ltb_spec k k') as [L|L]; cbn [cntp].
  - rewrite (mfind_lower t k' k H2) by lia. lia.
  - specialize (IH (Some k') k v H2). lia.
Qed.
Lemma cntp_mdel q m k : cntp q (mdel k m) + match mfind k m with Some p => isq q p | None => 0 end = cntp q m.
Proof.
  induction m as [|[k' v'] t IH]; cbn [mdel mfind cntp]; [lia|].
  destruct (Z.eqb_spec k k') as [->|Hk]; cbn [cntp]; lia.
Qed.
Lemma wptrs_mset q m : forall lo k v, sorted_from lo m ->
  wptrs q (mset k v m) + match mfind k m with Some x => cntp q (fwr x) | None => 0 end = wptrs q m + cntp q (fwr v).
Proof.
  induction m as [|[k' v'] t IH]; intros lo k v H; cbn [mset mfind wptrs]; [lia|].
  destruct (Z.eqb_spec k k') as [->|Hk]; cbn [wptrs]; [lia|].
  destruct H as [H1 H2]. destruct (Z.ltb_spec k k') as [L|L]; cbn [wptrs].
  - rewrite (mfind_lower t k' k H2) by lia. lia.
  - specialize (IH (Some k') k v H2). lia.
Qed.
Lemma wptrs_mdel q m k : wptrs q (mdel k m) + match mfind k m with Some x => cntp q (fwr x) | None => 0 end = wptrs q m.
Proof.
  induction m as [|[k' v'] t IH]; cbn [mdel mfind wptrs]; [lia|].
  destruct (Z.eqb_spec k k') as [->|Hk]; cbn [wptrs]; lia.
Qed.
Lemma rptrs_upd q l : forall r x y, nth_error l r = Some x ->
  rptrs q (upd l r y) + isq q (rq x) = rptrs q l + isq q (rq y).
Proof.
  induction l as [|h t IH]; intros [|r] x y H; cbn in H; try discriminate; cbn [upd rptrs].
  - inversion H; subst. lia.
  - specialize (IH r x y H). lia.
Qed.
Lemma rptrs_app q l r : rptrs q (l ++ [r]) = rptrs q l + isq q (rq r).
Proof. induction l as [|h t IH]; cbn; lia. Qed.
Lemma cntp_in q m k : mfind k m = Some (Some q) -> 1 <= cntp q m.
Proof.
  induction m as [|[k' v'] t IH]; cbn [mfind cntp]; [discriminate|].
  destruct (Z.eqb_spec k k'); intros H; [inversion H; subst; cbn; rewrite Nat.eqb_refl; lia|specialize (IH H); lia].
Qed.
Lemma wptrs_in q m k x : mfind k m = Some x -> cntp q (fwr x) <= wptrs q m.
Proof.
  induction m as [|[k' v'] t IH]; cbn [mfind wptrs]; [discriminate|].
  destruct (Z.eqb_spec k k'); intros H; [inversion H; subst; lia|specialize (IH H); lia].
Qed.
Lemma rptrs_in q l r x : nth_error l r = Some x -> rq x = Some q -> 1 <= rptrs q l.
Proof.
  revert r; induction l as [|h t IH]; intros [|r] H E; cbn in H; try discriminate; cbn [rptrs].
  - inversion H; subst. rewrite E. cbn. rewrite Nat.eqb_refl. lia.
  - specialize (IH r H E). lia.
Qed.

(** ** The heap invariant. *)
Definition qok (W R : nat) (x : option queueo) : Prop :=
  match x with
  | Some x => if qlive x then if qconn x then W = 1 /\ R = 1 else W + R <= 1 else W + R = 0
  | None => W + R = 0
  end.
Definition heap_ok (W R : nat -> nat) (l : list queueo) : Prop := forall q, qok (W q) (R q) (nth_error l q).

Lemma heap_ext W R W' R' l : (forall q, W q = W' q) -> (forall q, R q = R' q) -> heap_ok W R l -> heap_ok W' R' l.
Proof. intros H1 H2 H q. rewrite <- H1, <- H2. apply H. Qed.

Lemma drop_ok n q W R W' R' : heap_ok W R (qs n) -> 1 <= W q + R q ->
  W' q + R' q + 1 = W q + R q -> (forall k, k <> q -> W' k = W k /\ R' k = R k) ->
  exists l', dropQueue n (Some q) = Ok (mkNet (fs n) (rds n) l', true) /\ heap_ok W' R' l'.
Proof.
  intros H H1 H2 H3. pose proof (H q) as Hq. unfold qok in Hq. cbn [dropQueue]. unfold getQ.
  destruct (nth_error (qs n) q) as [x|] eqn:En; [|lia].
  destruct (qlive x) eqn:El; [|lia]. cbn [bind].
  assert (Hl : q < length (qs n)) by (apply nth_error_Some; congruence).
  destruct (qconn x) eqn:Ec; (eexists; split; [reflexivity|]); cbn [qs putQ];
    intros k; (destruct (Nat.eq_dec k q) as [->|Hk];
      [rewrite nth_error_upd_eq by exact Hl; cbn; lia
      |rewrite nth_error_upd_neq by congruence; destruct (H3 k Hk) as [-> ->]; apply H]).
Qed.

Lemma live_of_ptr n q W R : heap_ok W R (qs n) -> 1 <= W q + R q -> exists x, getQ n q = Ok x /\ nth_error (qs n) q = Some x /\ qlive x = true.
Proof.
  intros H H1. specialize (H q). unfold qok in H. unfold getQ.
  destruct (nth_error (qs n) q) as [x|]; [|lia]. destruct (qlive x) eqn:El; [|lia]. exists x. auto.
Qed.

Definition rids_ok (n : net) : Prop :=
  forall f x r o, mfind f (fs n) = Some x -> mfind r (frd x) = Some (Some o) -> o < length (rds n).
Definition fsorted (n : net) : Prop :=
  msorted (fs n) /\ forall f x, mfind f (fs n) = Some x -> msorted (frd x) /\ msorted (fwr x).

Record WF (n : net) : Prop := {
  wf_sorted : fsorted n;
  wf_rids : rids_ok n;
  wf_heap : heap_ok (fun q => wptrs q (fs n)) (fun q => rptrs q (rds n)) (qs n)
}.

(** What no operation on connections changes: the filters and their limits. *)
Definition skel (m : zmap filt) : list (Z * (nat * nat * nat)) :=
  map (fun kx => (fst kx, (fobj (snd kx), fmaxR (snd kx), fmaxW (snd kx)))) m.

Lemma skel_mset m : forall lo k x x', sorted_from lo m -> mfind k m = Some x ->
  fobj x' = fobj x -> fmaxR x' = fmaxR x -> fmaxW x' = fmaxW x -> skel (mset k x' m) = skel m.
Proof.
  induction m as [|[k' v'] t IH]; intros lo k x x' H Hf E1 E2 E3; cbn [mset mfind] in *; [discriminate|].
  destruct (Z.eqb_spec k k') as [->|Hk]; [inversion Hf; subst; cbn; rewrite E1, E2, E3; reflexivity|].
  destruct H as [H1 H2]. destruct (Z.ltb_spec k k') as [L|L].
  - rewrite (mfind_lower t k' k H2) in Hf by lia. discriminate.
  - cbn. f_equal. apply (IH (Some k') k x x' H2 Hf E1 E2 E3).
Qed.

Lemma wf_getF n f x : WF n -> mfind f (fs n) = Some x -> getF n f = Ok x.
Proof. intros _ H. unfold getF. rewrite H. reflexivity. Qed.

Lemma wf_new_filter n f x : WF n -> mfind f (fs n) = None -> frd x = [] -> fwr x = [] ->
  WF (mkNet (mset f x (fs n)) (rds n) (qs n)).
Proof.
  intros [[S1 S2] R H] Hf E1 E2. constructor; cbn.
  - split; cbn; [apply msorted_mset, S1|]. intros g y Hg. rewrite mfind_mset in Hg.
    destruct (Z.eqb_spec g f); [inversion Hg; subst; rewrite E1, E2; split; exact I|]. apply (S2 g y Hg).
  - intros g y r o Hg Hr. cbn in *. rewrite mfind_mset in Hg. destruct (Z.eqb_spec g f).
    + inversion Hg; subst. rewrite E1 in Hr. discriminate.
    + apply (R g y r o Hg Hr).
  - eapply heap_ext; [| |exact H]; [|reflexivity]. intros q. cbn.
    pose proof (wptrs_mset q (fs n) None f x S1) as Hw. rewrite Hf, E2 in Hw. cbn in Hw. lia.
Qed.

(** Change the reader map of one filter (the heap is not involved). *)
Lemma wf_setRd n f x m : WF n -> mfind f (fs n) = Some x -> msorted m ->
  (forall r o, mfind r m = Some (Some o) -> o < length (rds n)) -> WF (putF n f (setRd x m)).
Proof.
  intros [[S1 S2] R H] Hf Hm Ho. constructor; cbn.
  - split; cbn; [apply msorted_mset, S1|]. intros g y Hg. rewrite mfind_mset in Hg.
    destruct (Z.eqb_spec g f); [inversion Hg; subst; cbn; split; [exact Hm|apply (S2 f x Hf)]|apply (S2 g y Hg)].
  - intros g y r o Hg Hr. cbn in *. rewrite mfind_mset in Hg. destruct (Z.eqb_spec g f).
    + inversion Hg; subst. cbn in Hr. apply (Ho r o Hr).
    + apply (R g y r o Hg Hr).
  - eapply heap_ext; [| |exact H]; [|reflexivity]. intros q. cbn.
    pose proof (wptrs_mset q (fs n) None f (setRd x m) S1) as Hw. rewrite Hf in Hw. cbn in Hw. lia.
Qed.
Lemma skel_setRd n f x m : fsorted n -> mfind f (fs n) = Some x -> skel (fs (putF n f (setRd x m))) = skel (fs n).
Proof. intros [S1 _] Hf. cbn. apply (skel_mset (fs n) None f x); auto. Qed.
Lemma skel_setWr n f x m : fsorted n -> mfind f (fs n) = Some x -> skel (fs (putF n f (setWr x m))) = skel (fs n).
Proof. intros [S1 _] Hf. cbn. apply (skel_mset (fs n) None f x); auto. Qed.

(** Sortedness and reader numbers after changing a writer map. *)
Lemma fsorted_setWr n f x m l : fsorted n -> mfind f (fs n) = Some x -> msorted m ->
  fsorted (mkNet (mset f (setWr x m) (fs n)) (rds n) l).
Proof.
  intros [S1 S2] Hf Hm. split; cbn; [apply msorted_mset, S1|]. intros g y Hg. rewrite mfind_mset in Hg.
  destruct (Z.eqb_spec g f); [inversion Hg; subst; cbn; split; [apply (S2 f x Hf)|exact Hm]|apply (S2 g y Hg)].
Qed.
Lemma rids_setWr n f x m l : rids_ok n -> mfind f (fs n) = Some x ->
  rids_ok (mkNet (mset f (setWr x m) (fs n)) (rds n) l).
Proof.
  intros R Hf g y r o Hg Hr. cbn in *. rewrite mfind_mset in Hg. destruct (Z.eqb_spec g f).
  - inversion Hg; subst. cbn in Hr. apply (R f x r o Hf Hr).
  - apply (R g y r o Hg Hr).
Qed.

(** Dropping the queue pointer of one writer entry, which is then removed or emptied. *)
Lemma drop_writer n f x w p m : WF n -> mfind f (fs n) = Some x -> mfind w (fwr x) = Some p ->
  msorted m -> (forall q, cntp q m + isq q p = cntp q (fwr x)) ->
  exists n1, dropQueue n p = Ok (n1, match p with Some _ => true | None => false end) /\
    fs n1 = fs n /\ rds n1 = rds n /\ WF (putF n1 f (setWr x m)).
Proof.
  intros [S R H] Hf Hw Hm Hc. destruct p as [q|].
  - assert (Hq : 1 <= wptrs q (fs n)).
    { pose proof (wptrs_in q _ _ _ Hf). pose proof (cntp_in q _ _ Hw). lia. }
    assert (Hww : forall k, wptrs k (mset f (setWr x m) (fs n)) + isq k (Some q) = wptrs k (fs n)).
    { intros k. pose proof (wptrs_mset k (fs n) None f (setWr x m) (proj1 S)) as E. rewrite Hf in E. cbn [fwr setWr] in E.
      specialize (Hc k). pose proof (wptrs_in k _ _ _ Hf). lia. }
    destruct (drop_ok n q _ _ (fun k => wptrs k (mset f (setWr x m) (fs n))) (fun k => rptrs k (rds n)) H) as (l' & E & Hok).
    + cbn. lia.
    + cbn. specialize (Hww q). cbn in Hww. rewrite Nat.eqb_refl in Hww. lia.
    + intros k Hk. split; [|reflexivity]. specialize (Hww k). cbn in Hww. destruct (Nat.eqb_spec q k); [congruence|]. lia.
    + exists (mkNet (fs n) (rds n) l'). split; [exact E|]. split; [reflexivity|]. split; [reflexivity|].
      constructor; cbn; [apply fsorted_setWr; assumption|apply rids_setWr; assumption|exact Hok].
  - exists n. split; [reflexivity|]. split; [reflexivity|]. split; [reflexivity|].
    constructor; cbn; [apply fsorted_setWr; assumption|apply rids_setWr; assumption|].
    eapply heap_ext; [| |exact H]; [|reflexivity]. intros q. cbn.
    pose proof (wptrs_mset q (fs n) None f (setWr x m) (proj1 S)) as E. rewrite Hf in E. cbn [fwr setWr] in E.
    specialize (Hc q). cbn in Hc. lia.
Qed.

Lemma eraseWriter_ok n f w x p : WF n -> mfind f (fs n) = Some x -> mfind w (fwr x) = Some p -> exists n',
  eraseWriter n f w = Ok n' /\ WF n' /\ rds n' = rds n /\ fs n' = mset f (setWr x (mdel w (fwr x))) (fs n).
Proof.
  intros WFn Hf Hw. unfold eraseWriter, getF. rewrite Hf. cbn [bind]. rewrite Hw.
  destruct (drop_writer n f x w p (mdel w (fwr x)) WFn Hf Hw) as (n1 & E & E1 & E2 & W1).
  - apply msorted_mdel. apply (proj2 (wf_sorted n WFn) f x Hf).
  - intros q. pose proof (cntp_mdel q (fwr x) w) as E. rewrite Hw in E. exact E.
  - rewrite E. cbn [bind]. eexists. split; [reflexivity|]. split; [exact W1|]. split; [exact E2|]. cbn. rewrite E1. reflexivity.
Qed.

Lemma deleteWriter_ok n e f w x : WF n -> mfind f (fs n) = Some x -> exists n' b,
  deleteWriter n e f w = Ok (n', b) /\ WF n' /\ skel (fs n') = skel (fs n) /\ rds n' = rds n /\
  (forall g, g <> f -> mfind g (fs n') = mfind g (fs n)) /\
  (exists x', mfind f (fs n') = Some x' /\ frd x' = frd x).
Proof.
  intros WFn Hf. unfold deleteWriter. unfold getF. rewrite Hf. cbn [bind].
  destruct (mfind w (fwr x)) as [p|] eqn:Hw; [|eexists n, _; split; [reflexivity|]; repeat (split; [auto|]); exists x; auto].
  destruct (eraseWriter_ok n f w x p WFn Hf Hw) as (n1 & E & W1 & R1 & F1). rewrite E. cbn [bind].
  eexists _, _. split; [reflexivity|]. split; [exact W1|]. rewrite F1.
  split; [apply (skel_mset (fs n) None f x); auto; apply (wf_sorted n WFn)|].
  split; [exact R1|]. split.
  + intros g Hg. apply mfind_mset_neq. exact Hg.
  + exists (setWr x (mdel w (fwr x))). rewrite mfind_mset, Z.eqb_refl. auto.
Qed.

(** Reader objects: changing the queue pointer of one to NULL while dropping it. *)
Lemma getR_ok n o : o < length (rds n) -> exists x, getR n o = Ok x /\ nth_error (rds n) o = Some x.
Proof.
  intros H. unfold getR. destruct (nth_error (rds n) o) as [x|] eqn:E; [eauto|]. apply nth_error_None in E. lia.
Qed.

Lemma wf_putR_same n o x fl : WF n -> nth_error (rds n) o = Some x -> WF (putR n o (mkR (rq x) fl)).
Proof.
  intros [S R H] Ho. constructor; cbn; [exact S| |].
  - intros f y r k Hf Hr. cbn in *. rewrite upd_length. apply (R f y r k Hf Hr).
  - eapply heap_ext; [| |exact H]; [reflexivity|]. intros q. cbn. pose proof (rptrs_upd q (rds n) o x (mkR (rq x) fl) Ho) as E.
    cbn in E. lia.
Qed.

Lemma wf_putQ_cdata n q y l : WF n -> nth_error (qs n) q = Some y -> qlive y = true ->
  WF (putQ n q (mkQ true (qconn y) (qwr y) l)).
Proof.
  intros [S R H] Hq Hl. constructor; cbn; [exact S|exact R|].
  intros k. destruct (Nat.eq_dec k q) as [->|Hk].
  - rewrite nth_error_upd_eq by (apply nth_error_Some; congruence). specialize (H q). rewrite Hq in H. unfold qok in *.
    rewrite Hl in H. cbn. exact H.
  - rewrite nth_error_upd_neq by congruence. apply H.
Qed.

Lemma drop_reader n o x fl : WF n -> nth_error (rds n) o = Some x ->
  exists n1, dropQueue n (rq x) = Ok (n1, match rq x with Some _ => true | None => false end) /\
    fs n1 = fs n /\ rds n1 = rds n /\ WF (putR n1 o (mkR None fl)).
Proof.
  intros [S R H] Ho.
  assert (HR : forall l, rids_ok (mkNet (fs n) (upd (rds n) o (mkR None fl)) l)).
  { intros l f y r k Hf Hr. cbn in *. rewrite upd_length. apply (R f y r k Hf Hr). }
  pose proof (fun q => rptrs_upd q (rds n) o x (mkR None fl) Ho) as HU.
  destruct (rq x) as [q|] eqn:Eq.
  - pose proof (rptrs_in q _ _ _ Ho Eq) as Hp.
    destruct (drop_ok n q _ _ (fun k => wptrs k (fs n)) (fun k => rptrs k (upd (rds n) o (mkR None fl))) H) as (l' & E & Hok).
    + cbn. lia.
    + cbn. specialize (HU q). cbn in HU. rewrite Nat.eqb_refl in HU. lia.
    + intros k Hk. split; [reflexivity|]. specialize (HU k). cbn in HU. destruct (Nat.eqb_spec q k); [congruence|]. lia.
    + exists (mkNet (fs n) (rds n) l'). split; [exact E|]. split; [reflexivity|]. split; [reflexivity|].
      constructor; cbn; [exact S|apply HR|exact Hok].
  - exists n. split; [reflexivity|]. split; [reflexivity|]. split; [reflexivity|].
    constructor; cbn; [exact S|apply HR|].
    eapply heap_ext; [| |exact H]; [reflexivity|]. intros q. cbn. specialize (HU q). cbn in HU. lia.
Qed.

Lemma readerDisconnect_ok n o f : WF n -> o < length (rds n) -> exists n' b,
  readerDisconnect n o f = Ok (n', b) /\ WF n' /\ fs n' = fs n /\ length (rds n') = length (rds n).
Proof.
  intros WFn Ho. unfold readerDisconnect. destruct (getR_ok n o Ho) as (x & E & En). rewrite E. cbn [bind].
  destruct (negb (existsb (Z.eqb f) (rfs x))).
  { exists n, false. auto. }
  set (fl := filter (fun y => negb (y =? f)%Z) (rfs x)).
  pose proof (wf_putR_same n o x fl WFn En) as W1.
  assert (H2 : exists n2, (match rq x with
              | None => Ok (putR n o (mkR (rq x) fl))
              | Some q => do y <- getQ (putR n o (mkR (rq x) fl)) q;
                          Ok (putQ (putR n o (mkR (rq x) fl)) q (mkQ true (qconn y) (qwr y) (dropReader f (qrd y))))
              end) = Ok n2 /\ WF n2 /\ fs n2 = fs n /\ rds n2 = upd (rds n) o (mkR (rq x) fl)).
  { destruct (rq x) as [q|] eqn:Eq.
    - assert (Hp : 1 <= rptrs q (rds (putR n o (mkR (Some q) fl)))).
      { cbn. pose proof (rptrs_upd q (rds n) o x (mkR (Some q) fl) En) as U. rewrite Eq in U. cbn in U. rewrite Nat.eqb_refl in U.
        pose proof (rptrs_in q _ _ _ En Eq). lia. }
      destruct (live_of_ptr (putR n o (mkR (Some q) fl)) q _ _ (wf_heap _ W1)) as (y & Ey & Eny & Ely); [cbn in *; lia|].
      rewrite Ey. cbn [bind]. eexists. split; [reflexivity|]. split; [apply wf_putQ_cdata; assumption|]. split; reflexivity.
    - eexists. split; [reflexivity|]. split; [exact W1|]. split; reflexivity. }
  destruct H2 as (n2 & E2 & W2 & F2 & R2). rewrite E2. cbn [bind].
  destruct fl as [|a l] eqn:Efl.
  - assert (En2 : nth_error (rds n2) o = Some (mkR (rq x) [])).
    { rewrite R2. apply nth_error_upd_eq. exact Ho. }
    destruct (drop_reader n2 o (mkR (rq x) []) [] W2 En2) as (n3 & E3 & F3 & R3 & W3).
    cbn [rq] in E3. rewrite E3. cbn [bind]. eexists _, _. split; [reflexivity|]. split; [exact W3|].
    split; [cbn; congruence|]. cbn. rewrite upd_length, R3, R2, upd_length. reflexivity.
  - exists n2, true. split; [reflexivity|]. split; [exact W2|]. split; [exact F2|]. rewrite R2, upd_length. reflexivity.
Qed.

Lemma releaseReader_ok n p : WF n -> (forall o, p = Some o -> o < length (rds n)) -> exists n',
  releaseReader n p = Ok n' /\ WF n' /\ fs n' = fs n /\ length (rds n') = length (rds n).
Proof.
  intros WFn Hp. destruct p as [o|]; cbn [releaseReader]; [|exists n; auto].
  destruct (referenced n o); [exists n; auto|].
  destruct (getR_ok n o (Hp o eq_refl)) as (x & E & En). rewrite E. cbn [bind].
  destruct (drop_reader n o x (rfs x) WFn En) as (n1 & E1 & F1 & R1 & W1). rewrite E1. cbn [bind].
  eexists. split; [reflexivity|]. split; [exact W1|]. split; [exact F1|]. cbn. rewrite upd_length, R1. reflexivity.
Qed.

Lemma deleteReader_ok n e f r x : WF n -> mfind f (fs n) = Some x -> mfind r (frd x) <> Some None ->
  exists n' b, deleteReader n e f r = Ok (n', b) /\ WF n' /\ length (rds n') = length (rds n) /\
    fs n' = (match mfind r (frd x) with None => fs n | Some _ => mset f (setRd x (mdel r (frd x))) (fs n) end).
Proof.
  intros WFn Hf Hr. unfold deleteReader, getF. rewrite Hf. cbn [bind].
  destruct (mfind r (frd x)) as [[o|]|] eqn:Er; [|congruence|].
  - assert (Ho : o < length (rds n)) by (apply (wf_rids n WFn f x r o Hf Er)).
    destruct (readerDisconnect_ok n o f WFn Ho) as (n1 & b1 & E1 & W1 & F1 & L1). rewrite E1. cbn [bind].
    assert (Hf1 : mfind f (fs n1) = Some x) by congruence.
    assert (W2 : WF (putF n1 f (setRd x (mdel r (frd x))))).
    { apply wf_setRd; [exact W1|exact Hf1|apply msorted_mdel; apply (proj2 (wf_sorted n WFn) f x Hf)|].
      intros r' o' H. rewrite L1. rewrite mfind_mdel in H by apply (proj2 (wf_sorted n WFn) f x Hf).
      destruct (Z.eqb_spec r' r); [discriminate|]. apply (wf_rids n WFn f x r' o' Hf H). }
    destruct (releaseReader_ok _ (Some o) W2) as (n3 & E3 & W3 & F3 & L3).
    { intros o' Eo. inversion Eo; subst. cbn. lia. }
    rewrite E3. cbn [bind]. eexists _, _. split; [reflexivity|]. split; [exact W3|]. split; [cbn in L3; lia|].
    rewrite F3. cbn. congruence.
  - exists n, false. auto.
Qed.

Lemma disconnectReader_ok n e f r x : WF n -> mfind f (fs n) = Some x -> mfind r (frd x) <> Some None ->
  exists n' b, disconnectReader n e f r = Ok (n', b) /\ WF n' /\ length (rds n') = length (rds n) /\
    (fs n' = fs n \/ fs n' = mset f (setRd x (mdel r (frd x))) (fs n)).
Proof.
  intros WFn Hf Hr. unfold disconnectReader, getF. rewrite Hf. cbn [bind].
  destruct (mfind r (frd x)) as [[o|]|] eqn:Er; [|congruence|].
  - assert (Ho : o < length (rds n)) by (apply (wf_rids n WFn f x r o Hf Er)).
    destruct (readerDisconnect_ok n o f WFn Ho) as (n1 & b1 & E1 & W1 & F1 & L1). rewrite E1. cbn [bind].
    destruct b1.
    + destruct (deleteReader_ok n1 e f r x W1) as (n2 & b2 & E2 & W2 & L2 & F2); [congruence|congruence|].
      exists n2, b2. split; [exact E2|]. split; [exact W2|]. split; [lia|]. right. rewrite F2, Er, F1. reflexivity.
    + exists n1, false. auto.
  - exists n, true. auto.
Qed.

(** ** Effect on the inputs of the filters. *)
(** Only new inputs of a filter with a free slot appear, under new identifiers. *)
Definition rd_step (n n' : net) : Prop :=
  forall h y, mfind h (fs n) = Some y -> exists y', mfind h (fs n') = Some y' /\
    (frd y' = frd y \/ (length (frd y) < fmaxR y /\ exists r v, mfind r (frd y) = None /\ frd y' = mset r v (frd y))).

Lemma rd_step_refl n : rd_step n n.
Proof. intros h y H. exists y. auto. Qed.

Lemma setWriter_ok n e f w x : WF n -> mfind f (fs n) = Some x -> exists b,
  setWriter n e f w = Ok (if b : bool then putF n f (setWr x (mset w None (fwr x))) else n, b) /\
  (b = true -> mfind w (fwr x) = None).
Proof.
  intros WFn Hf. unfold setWriter, getF. rewrite Hf. cbn [bind].
  destruct (fmaxW x <=? length (fwr x)); [exists false; split; [reflexivity|discriminate]|].
  unfold mmem. destruct (mfind w (fwr x)) as [p|] eqn:Hw; [exists false; split; [reflexivity|discriminate]|].
  destruct (wcfg e f w); [exists true|exists false]; auto.
Qed.

Lemma wf_newWriter n f x w : WF n -> mfind f (fs n) = Some x -> mfind w (fwr x) = None ->
  WF (putF n f (setWr x (mset w None (fwr x)))).
Proof.
  intros [S R H] Hf Hw. constructor; cbn.
  - apply fsorted_setWr; [exact S|exact Hf|apply msorted_mset; apply (proj2 S f x Hf)].
  - apply rids_setWr; assumption.
  - eapply heap_ext; [| |exact H]; [|reflexivity]. intros q. cbn.
    pose proof (wptrs_mset q (fs n) None f (setWr x (mset w None (fwr x))) (proj1 S)) as E. rewrite Hf in E. cbn [fwr setWr] in E.
    pose proof (cntp_mset q (fwr x) None w None (proj2 (proj2 S f x Hf))) as E2. rewrite Hw in E2. cbn in E2. lia.
Qed.

Lemma wf_newQueue n x : WF n -> qlive x = true -> qconn x = false -> WF (mkNet (fs n) (rds n) (qs n ++ [x])).
Proof.
  intros [S R H] E1 E2. constructor; cbn; [exact S|exact R|]. intros q. specialize (H q).
  destruct (Nat.lt_ge_cases q (length (qs n))) as [L|L].
  - rewrite nth_error_app1 by exact L. exact H.
  - assert (E : nth_error (qs n) q = None) by (apply nth_error_None; exact L). rewrite E in H. unfold qok in *.
    rewrite nth_error_app2 by exact L. destruct (q - length (qs n)) as [|k]; cbn.
    + rewrite E1, E2. lia.
    + destruct k; cbn; exact H.
Qed.

Lemma wf_newReader n g y r : WF n -> mfind g (fs n) = Some y -> mfind r (frd y) = None ->
  WF (mkNet (mset g (setRd y (mset r (Some (length (rds n))) (frd y))) (fs n)) (rds n ++ [mkR None []]) (qs n)).
Proof.
  intros [S R H] Hg Hr. constructor; cbn.
  - destruct S as [S1 S2]. split; cbn; [apply msorted_mset, S1|]. intros h z Hh. rewrite mfind_mset in Hh.
    destruct (Z.eqb_spec h g); [inversion Hh; subst; cbn|apply (S2 h z Hh)].
    destruct (S2 g y Hg) as [A B]. split; [apply msorted_mset, A|exact B].
  - intros h z k o Hh Hk. cbn in *. rewrite app_length. cbn. rewrite mfind_mset in Hh. destruct (Z.eqb_spec h g).
    + inversion Hh; subst. cbn in Hk. rewrite mfind_mset in Hk. destruct (Z.eqb_spec k r); [inversion Hk; lia|].
      pose proof (R g y k o Hg Hk). lia.
    + pose proof (R h z k o Hh Hk). lia.
  - eapply heap_ext; [| |exact H].
    + intros q. cbn. pose proof (wptrs_mset q (fs n) None g (setRd y (mset r (Some (length (rds n))) (frd y))) (proj1 S)) as E.
      rewrite Hg in E. cbn in E. lia.
    + intros q. cbn. rewrite rptrs_app. cbn. lia.
Qed.

Lemma connect_ok n e f w g r x y : WF n -> mfind f (fs n) = Some x -> mfind g (fs n) = Some y -> f <> g ->
  exists n' b, connect n e f w g r = Ok (n', b) /\ WF n' /\ skel (fs n') = skel (fs n) /\ rd_step n n' /\
    length (rds n) <= length (rds n') /\
    (b = true -> exists o, (exists y', mfind g (fs n') = Some y' /\ mfind r (frd y') = Some (Some o)) /\
                 (exists x' q k, mfind f (fs n') = Some x' /\ mfind w (fwr x') = Some (Some q) /\
                    nth_error (rds n') o = Some (mkR (Some q) [g]) /\
                    nth_error (qs n') q = Some k /\ qconn k = true)) /\
    (b = false -> (forall z, rcfg e g z = true) -> forall h z, mfind h (fs n) = Some z ->
        exists z', mfind h (fs n') = Some z' /\ frd z' = frd z).
Proof.
  intros WFn Hf Hg Hfg. unfold connect. destruct (Z.eqb_spec f g) as [|_]; [contradiction|].
  unfold getF at 1. rewrite Hg. cbn [bind].
  assert (HB : exists b, (match mfind r (frd y) with Some (Some o) => readerConnected n (Some o) | _ => Ok false end) = Ok b).
  { destruct (mfind r (frd y)) as [[o|]|] eqn:Er; eauto. cbn [readerConnected].
    destruct (getR_ok n o (wf_rids n WFn g y r o Hg Er)) as (z & Ez & Enz). rewrite Ez. cbn [bind].
    destruct (rq z) as [q|] eqn:Eq; cbn [ptrConnected]; eauto.
    destruct (live_of_ptr n q _ _ (wf_heap n WFn)) as (k & Ek & _ & _).
    { pose proof (rptrs_in q _ _ _ Enz Eq). lia. }
    rewrite Ek. cbn. eauto. }
  destruct HB as (busy & EB). rewrite EB. cbn [bind]. clear EB.
  destruct busy.
  { exists n, false. split; [reflexivity|]. split; [exact WFn|]. split; [reflexivity|]. split; [apply rd_step_refl|].
    split; [lia|]. split; [discriminate|]. intros _ _ h z Hz. eauto. }
  destruct (setWriter_ok n e f w x WFn Hf) as (b & Ew & Hw). rewrite Ew. cbn [bind].
  destruct b; cbn [negb].
  2:{ exists n, false. split; [reflexivity|]. split; [exact WFn|]. split; [reflexivity|]. split; [apply rd_step_refl|].
      split; [lia|]. split; [discriminate|]. intros _ _ h z Hz. eauto. }
  specialize (Hw eq_refl).
  set (x1 := setWr x (mset w None (fwr x))) in *. set (n1 := putF n f x1).
  assert (W1 : WF n1) by (apply wf_newWriter; assumption).
  assert (Hf1 : mfind f (fs n1) = Some x1) by (cbn; rewrite mfind_mset, Z.eqb_refl; reflexivity).
  assert (Hg1 : mfind g (fs n1) = Some y) by (cbn; rewrite mfind_mset_neq by congruence; exact Hg).
  assert (Sk1 : skel (fs n1) = skel (fs n)) by (apply skel_setWr; [apply (wf_sorted n WFn)|exact Hf]).
  assert (Hoth : forall h z, mfind h (fs n) = Some z -> exists z', mfind h (fs n1) = Some z' /\ frd z' = frd z /\ fmaxR z' = fmaxR z).
  { intros h z Hz. cbn. rewrite mfind_mset. destruct (Z.eqb_spec h f) as [->|]; [|eauto].
    exists x1. rewrite Hf in Hz. inversion Hz; subst. auto. }
  destruct (aq e f); cbn [negb].
  2:{ destruct (deleteWriter_ok n1 e f w x1 W1 Hf1) as (n2 & b2 & E2 & W2 & Sk2 & R2 & O2 & (x' & Hx' & Fx')).
      rewrite E2. cbn [bind]. exists n2, false. split; [reflexivity|]. split; [exact W2|]. split; [congruence|].
      assert (Hall : forall h z, mfind h (fs n) = Some z -> exists z', mfind h (fs n2) = Some z' /\ frd z' = frd z).
      { intros h z Hz. destruct (Z.eq_dec h f) as [->|Hh].
        - exists x'. split; [exact Hx'|]. rewrite Hf in Hz. inversion Hz; subst. rewrite Fx'. reflexivity.
        - exists z. split; [|reflexivity]. rewrite O2 by exact Hh. cbn. rewrite mfind_mset_neq by exact Hh. exact Hz. }
      split; [intros h z Hz; destruct (Hall h z Hz) as (z' & A & B); eauto|].
      split; [rewrite R2; cbn; lia|]. split; [discriminate|]. auto. }
  set (qn := mkQ true false (f, w) [(g, r)]).
  set (n2 := mkNet (fs n1) (rds n1) (qs n1 ++ [qn])).
  assert (W2 : WF n2) by (apply wf_newQueue; [exact W1|reflexivity|reflexivity]).
  unfold setReader. unfold getF at 1. cbn [fs n2]. rewrite Hg1. cbn [bind].
  destruct ((fmaxR y <=? length (frd y)) || mmem r (frd y)) eqn:Efull.
  { cbn [bind]. destruct (deleteWriter_ok n2 e f w x1 W2 Hf1) as (n4 & b4 & E4 & W4 & Sk4 & R4 & O4 & (x' & Hx' & Fx')).
    rewrite E4. cbn [bind]. exists n4, false. split; [reflexivity|]. split; [exact W4|]. split; [cbn [n2 fs] in Sk4; congruence|].
    assert (Hall : forall h z, mfind h (fs n) = Some z -> exists z', mfind h (fs n4) = Some z' /\ frd z' = frd z).
    { intros h z Hz. destruct (Z.eq_dec h f) as [->|Hh].
      - exists x'. split; [exact Hx'|]. rewrite Hf in Hz. inversion Hz; subst. rewrite Fx'. reflexivity.
      - exists z. split; [|reflexivity]. rewrite O4 by exact Hh. cbn. rewrite mfind_mset_neq by exact Hh. exact Hz. }
    split; [intros h z Hz; destruct (Hall h z Hz) as (z' & A & B); eauto|].
    split; [rewrite R4; cbn; lia|]. split; [discriminate|]. auto. }
  apply orb_false_iff in Efull. destruct Efull as [Ef1 Ef2].
  assert (Hlt : length (frd y) < fmaxR y) by (apply Nat.leb_gt in Ef1; exact Ef1).
  assert (Hnr : mfind r (frd y) = None) by (unfold mmem in Ef2; destruct (mfind r (frd y)); [discriminate|reflexivity]).
  destruct (rcfg e g r) eqn:Ecfg.
  2:{ cbn [bind].
      set (n3 := putF n2 g (setRd y (mset r None (frd y)))).
      assert (W3 : WF n3).
      { apply wf_setRd; [exact W2|exact Hg1|apply msorted_mset; apply (proj2 (wf_sorted n WFn) g y Hg)|].
        intros r' o' H. cbn. rewrite mfind_mset in H. destruct (Z.eqb_spec r' r); [discriminate|].
        apply (wf_rids n WFn g y r' o' Hg H). }
      assert (Hf3 : mfind f (fs n3) = Some x1) by (cbn; rewrite mfind_mset_neq by congruence; exact Hf1).
      assert (Sk3 : skel (fs n3) = skel (fs n)).
      { unfold n3. rewrite skel_setRd; [cbn; exact Sk1|apply (wf_sorted n2 W2)|exact Hg1]. }
      destruct (deleteWriter_ok n3 e f w x1 W3 Hf3) as (n4 & b4 & E4 & W4 & Sk4 & R4 & O4 & (x' & Hx' & Fx')).
      change (mkNet (mset g (setRd y (mset r None (frd y))) (fs n1)) (rds n1) (qs n1 ++ [qn])) with n3.
      rewrite E4. cbn [bind]. exists n4, false. split; [reflexivity|]. split; [exact W4|]. split; [congruence|].
      split; [|split; [rewrite R4; cbn; lia|split; [discriminate|]]].
      - intros h z Hz. destruct (Z.eq_dec h f) as [->|Hh].
        + exists x'. split; [exact Hx'|]. left. rewrite Hf in Hz. inversion Hz; subst. rewrite Fx'. reflexivity.
        + rewrite O4 by exact Hh. cbn. rewrite mfind_mset. destruct (Z.eqb_spec h g) as [->|Hh2].
          * eexists. split; [reflexivity|]. right. rewrite Hg in Hz. inversion Hz; subst. split; [exact Hlt|].
            exists r, None. auto.
          * rewrite mfind_mset_neq by exact Hh. eauto.
      - intros _ Hc. rewrite Hc in Ecfg. discriminate. }
  cbn [bind].
  set (o := length (rds n1)).
  set (n3 := mkNet (mset g (setRd y (mset r (Some o) (frd y))) (fs n1)) (rds n1 ++ [mkR None []]) (qs n1 ++ [qn])).
  assert (W3 : WF n3) by (apply (wf_newReader n2 g y r W2 Hg1 Hnr)).
  assert (Hf3 : mfind f (fs n3) = Some x1) by (cbn [n3 fs]; rewrite mfind_mset_neq by congruence; exact Hf1).
  unfold n2 in *. cbn [fs rds qs] in *. change (mkNet (mset g (setRd y (mset r (Some (length (rds n1))) (frd y))) (fs n1)) (rds n1 ++ [mkR None []]) (qs n1 ++ [qn])) with n3. unfold getF. rewrite Hf3. cbn [bind].
  set (q := length (qs n1)).
  set (x4 := setWr x1 (mset w (Some q) (fwr x1))).
  assert (Enq : nth_error (qs n3) q = Some qn).
  { unfold n3, q. cbn. rewrite nth_error_app2 by lia. rewrite Nat.sub_diag. reflexivity. }
  assert (Eno : nth_error (rds n3) o = Some (mkR None [])).
  { unfold n3, o. cbn. rewrite nth_error_app2 by lia. rewrite Nat.sub_diag. reflexivity. }
  unfold getQ. cbn [putR putF qs]. rewrite Enq. cbn [qlive qn bind].
  eexists _, true. split; [reflexivity|].
  pose proof (wf_sorted n3 W3) as S3.
  assert (Hx1w : mfind w (fwr x1) = Some None) by (cbn; rewrite mfind_mset, Z.eqb_refl; reflexivity).
  assert (HW0 : wptrs q (fs n3) + rptrs q (rds n3) = 0).
  { pose proof (wf_heap n1 W1 q) as Hq. assert (nth_error (qs n1) q = None) by (apply nth_error_None; unfold q; lia).
    rewrite H in Hq. unfold qok in Hq. unfold n3. cbn [fs rds]. rewrite rptrs_app.
    pose proof (wptrs_mset q (fs n1) None g (setRd y (mset r (Some o) (frd y))) (proj1 (wf_sorted n1 W1))) as E. rewrite Hg1 in E.
    cbn in E. cbn. unfold n1 in *. cbn in *. lia. }
  assert (HW4 : forall k, wptrs k (mset f x4 (fs n3)) = wptrs k (fs n3) + isq k (Some q)).
  { intros k. pose proof (wptrs_mset k (fs n3) None f x4 (proj1 S3)) as E. rewrite Hf3 in E. unfold x4 in E. cbn [fwr setWr] in E.
    pose proof (cntp_mset k (fwr x1) None w (Some q) (proj2 (proj2 S3 f x1 Hf3))) as E2. rewrite Hx1w in E2. cbn [isq] in *.
    unfold x4. lia. }
  assert (HR4 : forall k, rptrs k (upd (rds n3) o (mkR (Some q) [g])) = rptrs k (rds n3) + isq k (Some q)).
  { intros k. pose proof (rptrs_upd k (rds n3) o (mkR None []) (mkR (Some q) [g]) Eno) as E. cbn [isq rq] in *. lia. }
  split; [|split; [|split; [|split; [|split; [|discriminate]]]]].
  - constructor; cbn [putQ putR putF fs rds qs].
    + exact (fsorted_setWr n3 f x1 _ (qs n3) S3 Hf3 (msorted_mset _ w (Some q) (proj2 (proj2 S3 f x1 Hf3)))).
    + pose proof (rids_setWr n3 f x1 (mset w (Some q) (fwr x1)) (qs n3) (wf_rids n3 W3) Hf3) as RR.
      intros h z k oo Hh Hk. cbn in *. rewrite upd_length. apply (RR h z k oo Hh Hk).
    + intros k. destruct (Nat.eq_dec k q) as [->|Hk].
      * rewrite nth_error_upd_eq by (apply nth_error_Some; congruence). cbn [qok qlive qconn].
        rewrite HW4, HR4. cbn [isq]. rewrite Nat.eqb_refl. lia.
      * rewrite nth_error_upd_neq by congruence. rewrite HW4, HR4. cbn [isq].
        destruct (Nat.eqb_spec q k); [congruence|]. rewrite !Nat.add_0_r. apply (wf_heap n3 W3 k).
  - cbn [putQ putR putF fs]. rewrite (skel_mset (fs n3) None f x1 x4); auto; [|apply S3].
    cbn [n3 fs]. rewrite (skel_mset (fs n1) None g y); auto. apply (wf_sorted n1 W1).
  - intros h z Hz. cbn [putQ putR putF fs]. rewrite mfind_mset. destruct (Z.eqb_spec h f) as [->|Hh].
    + eexists. split; [reflexivity|]. left. rewrite Hf in Hz. inversion Hz; subst. reflexivity.
    + cbn [n3 fs]. rewrite mfind_mset. destruct (Z.eqb_spec h g) as [->|Hh2].
      * eexists. split; [reflexivity|]. right. rewrite Hg in Hz. inversion Hz; subst. split; [exact Hlt|].
        exists r, (Some o). auto.
      * cbn. rewrite mfind_mset_neq by exact Hh. eauto.
  - cbn. rewrite upd_length, app_length. cbn. lia.
  - intros _. exists o. split.
    + exists (setRd y (mset r (Some o) (frd y))). cbn [putQ putR putF fs]. rewrite mfind_mset_neq by congruence. cbn [n3 fs].
      rewrite mfind_mset, Z.eqb_refl. split; [reflexivity|]. cbn. rewrite mfind_mset, Z.eqb_refl. reflexivity.
    + exists x4, q. eexists. cbn [putQ putR putF fs rds qs]. rewrite mfind_mset, Z.eqb_refl. split; [reflexivity|].
      split; [unfold x4; cbn; rewrite mfind_mset, Z.eqb_refl; reflexivity|].
      split; [apply nth_error_upd_eq; apply nth_error_Some; congruence|].
      split; [apply nth_error_upd_eq; apply nth_error_Some; congruence|]. reflexivity.
Qed.

Lemma ptrConnected_ok n p : WF n -> (forall q, p = Some q -> 1 <= wptrs q (fs n) + rptrs q (rds n)) ->
  exists b, ptrConnected n p = Ok b.
Proof.
  intros WFn Hp. destruct p as [q|]; cbn [ptrConnected]; [|eauto].
  destruct (live_of_ptr n q _ _ (wf_heap n WFn)) as (k & Ek & _ & _); [exact (Hp q eq_refl)|]. rewrite Ek. cbn. eauto.
Qed.
Lemma writer_ptr n f x w p : mfind f (fs n) = Some x -> mfind w (fwr x) = Some p ->
  forall q, p = Some q -> 1 <= wptrs q (fs n) + rptrs q (rds n).
Proof.
  intros Hf Hw q ->. pose proof (wptrs_in q _ _ _ Hf). pose proof (cntp_in q _ _ Hw). lia.
Qed.
Lemma readerConnected_ok n o : WF n -> o < length (rds n) -> exists b, readerConnected n (Some o) = Ok b.
Proof.
  intros WFn Ho. cbn [readerConnected]. destruct (getR_ok n o Ho) as (z & Ez & Enz). rewrite Ez. cbn [bind].
  apply ptrConnected_ok; [exact WFn|]. intros q Eq. pose proof (rptrs_in q _ _ _ Enz Eq). lia.
Qed.

Lemma isRConnected_safe n f r : WF n -> safe (isRConnected n f r) (fun _ => True).
Proof.
  intros WFn. unfold isRConnected, getF. destruct (mfind f (fs n)) as [x|] eqn:Hf; cbn [bind]; [|exact I].
  destruct (mfind r (frd x)) as [[o|]|] eqn:Hr; [|exact I|exact I].
  destruct (readerConnected_ok n o WFn (wf_rids n WFn f x r o Hf Hr)) as (b & E). rewrite E. exact I.
Qed.
Lemma isWConnected_safe n f r : WF n -> safe (isWConnected n f r) (fun _ => True).
Proof.
  intros WFn. unfold isWConnected, getF. destruct (mfind f (fs n)) as [x|] eqn:Hf; cbn [bind]; [|exact I].
  destruct (mfind r (fwr x)) as [p|] eqn:Hr; [|exact I].
  destruct (ptrConnected_ok n p WFn (writer_ptr n f x r p Hf Hr)) as (b & E). rewrite E. exact I.
Qed.

Lemma shareReader_safe n e f r g s : WF n ->
  safe (shareReader n e f r g s) (fun x => WF (fst x) /\ skel (fs (fst x)) = skel (fs n)).
Proof.
  intros WFn. unfold shareReader. destruct (f =? g)%Z; [cbn; auto|].
  unfold getF at 1. destruct (mfind f (fs n)) as [x|] eqn:Hf; cbn [bind]; [|exact I].
  destruct (mfind r (frd x)) as [p|] eqn:Hr; [|cbn; auto].
  destruct p as [o|]; [|exact I].
  assert (Ho : o < length (rds n)) by apply (wf_rids n WFn f x r o Hf Hr).
  destruct (readerConnected_ok n o WFn Ho) as (b & E). rewrite E. cbn [bind].
  destruct b; cbn [negb]; [|cbn; auto].
  apply (safe_bind _ _ (fun _ => True)); [apply isRConnected_safe, WFn|]. intros d _ _.
  destruct d; [cbn; auto|]. destruct (rcfg e g s); cbn [negb]; [|cbn; auto].
  unfold getF. destruct (mfind g (fs n)) as [y|] eqn:Hg; cbn [bind]; [|exact I].
  assert (W1 : WF (putF n g (setRd y (mset s (Some o) (frd y))))).
  { apply wf_setRd; [exact WFn|exact Hg|apply msorted_mset; apply (proj2 (wf_sorted n WFn) g y Hg)|].
    intros r' o' H. rewrite mfind_mset in H. destruct (Z.eqb_spec r' s); [inversion H; subst; exact Ho|].
    apply (wf_rids n WFn g y r' o' Hg H). }
  destruct (releaseReader_ok _ (match mfind s (frd y) with Some z => z | None => None end) W1) as (n1 & E1 & W2 & F2 & L2).
  { intros o' Eo. cbn. destruct (mfind s (frd y)) as [z|] eqn:Es; [|discriminate]. subst z. apply (wf_rids n WFn g y s o' Hg Es). }
  rewrite E1. cbn [bind]. cbn in L2.
  assert (Sk : skel (fs n1) = skel (fs n)) by (rewrite F2; apply skel_setRd; [apply (wf_sorted n WFn)|exact Hg]).
  destruct (getR_ok n1 o) as (z & Ez & Enz); [lia|]. rewrite Ez. cbn [bind].
  destruct (rq z) as [q|] eqn:Eq; [|cbn; auto].
  destruct (live_of_ptr n1 q _ _ (wf_heap n1 W2)) as (k & Ek & Enk & Elk).
  { cbn. pose proof (rptrs_in q _ _ _ Enz Eq). lia. }
  rewrite Ek. cbn [bind]. destruct (qconn k && _) eqn:Ec; [|cbn; auto].
  cbn [safe fst]. split; [|cbn; exact Sk].
  pose proof (wf_putQ_cdata n1 q k (qrd k ++ [(g, s)]) W2 Enk Elk) as W3. rewrite <- Eq.
  apply wf_putR_same; [exact W3|exact Enz].
Qed.

Lemma sweepWriters_ok n e f ws : WF n -> (exists x, mfind f (fs n) = Some x) -> exists n',
  sweepWriters n e f ws = Ok n' /\ WF n' /\ skel (fs n') = skel (fs n) /\
  (forall h y, mfind h (fs n) = Some y -> exists y', mfind h (fs n') = Some y' /\ frd y' = frd y).
Proof.
  revert n. induction ws as [|w t IH]; intros n WFn (x & Hf); cbn [sweepWriters].
  - exists n. split; [reflexivity|]. split; [exact WFn|]. split; [reflexivity|]. eauto.
  - unfold getF. rewrite Hf. cbn [bind]. destruct (mfind w (fwr x)) as [p|] eqn:Hw; [|apply (IH n WFn); eauto].
    destruct (ptrConnected_ok n p WFn (writer_ptr n f x w p Hf Hw)) as (b & E). rewrite E. cbn [bind].
    destruct b; [apply (IH n WFn); eauto|].
    destruct (drop_writer n f x w p (mset w None (fwr x)) WFn Hf Hw) as (n1 & E1 & F1 & R1 & W1).
    { apply msorted_mset. apply (proj2 (wf_sorted n WFn) f x Hf). }
    { intros q. pose proof (cntp_mset q (fwr x) None w None (proj2 (proj2 (wf_sorted n WFn) f x Hf))) as C.
      rewrite Hw in C. cbn in *. lia. }
    rewrite E1. cbn [bind].
    set (n2 := putF n1 f (setWr x (mset w None (fwr x)))) in *.
    assert (Hf2 : mfind f (fs n2) = Some (setWr x (mset w None (fwr x)))) by (cbn; rewrite mfind_mset, Z.eqb_refl; reflexivity).
    destruct (deleteWriter_ok n2 e f w _ W1 Hf2) as (n3 & b3 & E3 & W3 & Sk3 & R3 & O3 & (x' & Hx' & Fx')).
    rewrite E3. cbn [bind].
    destruct (IH n3 W3) as (n' & E' & W' & Sk' & O'); [eauto|]. exists n'. split; [exact E'|]. split; [exact W'|].
    assert (Sk2 : skel (fs n2) = skel (fs n)).
    { cbn. rewrite F1. apply (skel_mset (fs n) None f x); auto. apply (wf_sorted n WFn). }
    split; [congruence|]. intros h y Hy. destruct (Z.eq_dec h f) as [->|Hh].
    + destruct (O' f x' Hx') as (y' & A & B). exists y'. split; [exact A|]. rewrite B, Fx'. cbn.
      rewrite Hf in Hy. inversion Hy. reflexivity.
    + apply O'. rewrite O3 by exact Hh. cbn. rewrite F1, mfind_mset_neq by exact Hh. exact Hy.
Qed.

(** Inputs only disappear. *)
Definition rd_shrink (n n' : net) : Prop :=
  forall h y, mfind h (fs n) = Some y -> exists y', mfind h (fs n') = Some y' /\
    length (frd y') <= length (frd y) /\ fmaxR y' = fmaxR y.
Lemma mdel_le {A} (m : zmap A) k : length (mdel k m) <= length m.
Proof. induction m as [|[k' v] t IH]; cbn; [lia|]. destruct (k =? k')%Z; cbn; lia. Qed.
Lemma rd_shrink_refl n : rd_shrink n n.
Proof. intros h y H. exists y. auto. Qed.
Lemma rd_shrink_trans a b c : rd_shrink a b -> rd_shrink b c -> rd_shrink a c.
Proof.
  intros H1 H2 h y Hy. destruct (H1 h y Hy) as (y1 & A & B & C). destruct (H2 h y1 A) as (y2 & A2 & B2 & C2).
  exists y2. split; [exact A2|]. split; [lia|congruence].
Qed.
Lemma rd_shrink_del n f x r l k : mfind f (fs n) = Some x -> rd_shrink n (mkNet (mset f (setRd x (mdel r (frd x))) (fs n)) l k).
Proof.
  intros Hf h y Hy. cbn. rewrite mfind_mset. destruct (Z.eqb_spec h f) as [->|]; [|eauto].
  rewrite Hf in Hy. inversion Hy; subst. eexists. split; [reflexivity|]. cbn. split; [apply mdel_le|reflexivity].
Qed.

Lemma sweepReaders_safe n e f b rs : WF n -> (exists x, mfind f (fs n) = Some x) ->
  safe (sweepReaders n e f b rs) (fun n' => WF n' /\ skel (fs n') = skel (fs n) /\ rd_shrink n n').
Proof.
  revert n. induction rs as [|r t IH]; intros n WFn (x & Hf); cbn [sweepReaders].
  - cbn. split; [exact WFn|]. split; [reflexivity|apply rd_shrink_refl].
  - unfold getF. rewrite Hf. cbn [bind]. destruct (mfind r (frd x)) as [[o|]|] eqn:Hr.
    + destruct (readerConnected_ok n o WFn (wf_rids n WFn f x r o Hf Hr)) as (c & E). rewrite E. cbn [bind].
      destruct c; [apply (IH n WFn); eauto|].
      destruct (deleteReader_ok n e f r x WFn Hf) as (n1 & b1 & E1 & W1 & L1 & F1); [congruence|].
      rewrite E1. cbn [bind]. rewrite Hr in F1.
      assert (Hx : exists x1, mfind f (fs n1) = Some x1) by (rewrite F1, mfind_mset, Z.eqb_refl; eauto).
      specialize (IH n1 W1 Hx). destruct (sweepReaders n1 e f b t) as [n'|bg]; cbn in *; [|exact IH].
      destruct IH as (A & B & C). split; [exact A|]. split.
      * rewrite B, F1. apply (skel_mset (fs n) None f x); auto. apply (wf_sorted n WFn).
      * apply (rd_shrink_trans n n1 n'); [|exact C]. destruct n1 as [f1 r1 q1]. cbn in F1. subst f1.
        apply rd_shrink_del. exact Hf.
    + destruct b; [exact I|apply (IH n WFn); eauto].
    + apply (IH n WFn); eauto.
Qed.

Lemma dropReaders_ok n f l : WF n -> (forall k o, In (k, Some o) l -> o < length (rds n)) -> exists n',
  dropReaders n f l = Ok n' /\ WF n' /\ fs n' = fs n /\ length (rds n') = length (rds n).
Proof.
  revert n. induction l as [|[k [o|]] t IH]; intros n WFn Hl; cbn [dropReaders].
  - exists n. auto.
  - destruct (0 <=? k)%Z.
    + destruct (readerDisconnect_ok n o f WFn) as (n1 & b1 & E1 & W1 & F1 & L1); [apply (Hl k o); left; reflexivity|].
      rewrite E1. cbn [bind]. destruct (IH n1 W1) as (n' & E' & W' & F' & L').
      { intros k' o' H. rewrite L1. apply (Hl k' o'). right. exact H. }
      exists n'. split; [exact E'|]. split; [exact W'|]. split; [congruence|lia].
    + apply (IH n WFn). intros k' o' H. apply (Hl k' o'). right. exact H.
  - apply (IH n WFn). intros k' o' H. apply (Hl k' o'). right. exact H.
Qed.
Lemma clearReaders_ok n l : WF n -> (forall k o, In (k, Some o) l -> o < length (rds n)) -> exists n',
  clearReaders n l = Ok n' /\ WF n' /\ fs n' = fs n /\ length (rds n') = length (rds n).
Proof.
  revert n. induction l as [|[k p] t IH]; intros n WFn Hl; cbn [clearReaders].
  - exists n. auto.
  - destruct (releaseReader_ok n p WFn) as (n1 & E1 & W1 & F1 & L1).
    { intros o ->. apply (Hl k o). left. reflexivity. }
    rewrite E1. cbn [bind]. destruct (IH n1 W1) as (n' & E' & W' & F' & L').
    { intros k' o' H. rewrite L1. apply (Hl k' o'). right. exact H. }
    exists n'. split; [exact E'|]. split; [exact W'|]. split; [congruence|lia].
Qed.

Lemma mset_mset {A} (m : zmap A) k v1 v2 : mset k v2 (mset k v1 m) = mset k v2 m.
Proof.
  induction m as [|[k' v'] t IH]; cbn; [rewrite Z.eqb_refl; reflexivity|].
  destruct (Z.eqb_spec k k') as [->|Hk]; cbn; [rewrite Z.eqb_refl; reflexivity|].
  destruct (Z.ltb_spec k k') as [L|L]; cbn; [rewrite Z.eqb_refl; reflexivity|].
  destruct (Z.eqb_spec k k'); [contradiction|]. destruct (Z.ltb_spec k k'); [lia|]. rewrite IH. reflexivity.
Qed.
Lemma mdel_mset {A} (m : zmap A) : forall lo k v, sorted_from lo m -> mdel k (mset k v m) = mdel k m.
Proof.
  induction m as [|[k' v'] t IH]; intros lo k v H; cbn; [rewrite Z.eqb_refl; reflexivity|].
  destruct H as [H1 H2]. destruct (Z.eqb_spec k k') as [->|Hk]; cbn; [rewrite Z.eqb_refl; reflexivity|].
  destruct (Z.ltb_spec k k') as [L|L]; cbn.
  - rewrite Z.eqb_refl. f_equal. symmetry. apply mdel_absent. apply (mfind_lower t k' k H2). lia.
  - destruct (Z.eqb_spec k k'); [contradiction|]. f_equal. apply (IH (Some k') k v H2).
Qed.

Lemma clearWriters_ok f : forall m n x, WF n -> mfind f (fs n) = Some x -> fwr x = m -> exists n',
  clearWriters n f (mkeys m) = Ok n' /\ WF n' /\ rds n' = rds n /\ fs n' = mset f (setWr x []) (fs n).
Proof.
  induction m as [|[w p] t IH]; intros n x WFn Hf E; cbn [mkeys map clearWriters fst].
  - exists n. split; [reflexivity|]. split; [exact WFn|]. split; [reflexivity|].
    apply mext; [apply (wf_sorted n WFn)|apply msorted_mset; apply (wf_sorted n WFn)|].
    intros k. rewrite mfind_mset. destruct (Z.eqb_spec k f) as [->|]; [|reflexivity]. rewrite Hf. f_equal.
    destruct x as [a b c d w]. cbn in *. subst w. reflexivity.
  - assert (Hw : mfind w (fwr x) = Some p) by (rewrite E; cbn; rewrite Z.eqb_refl; reflexivity).
    destruct (eraseWriter_ok n f w x p WFn Hf Hw) as (n1 & E1 & W1 & R1 & F1). rewrite E1. cbn [bind].
    assert (Hd : mdel w (fwr x) = t) by (rewrite E; cbn; rewrite Z.eqb_refl; reflexivity). rewrite Hd in F1.
    destruct (IH n1 (setWr x t) W1) as (n' & E' & W' & R' & F'); [rewrite F1, mfind_mset, Z.eqb_refl; reflexivity|reflexivity|].
    exists n'. split; [exact E'|]. split; [exact W'|]. split; [congruence|]. rewrite F', F1, mset_mset. reflexivity.
Qed.

Lemma destroyFilter_ok n f x : WF n -> mfind f (fs n) = Some x -> exists n',
  destroyFilter n f = Ok n' /\ WF n' /\ fs n' = mdel f (fs n) /\ length (rds n') = length (rds n).
Proof.
  intros WFn Hf. unfold destroyFilter, getF. rewrite Hf. cbn [bind].
  assert (S := wf_sorted n WFn). destruct (proj2 S f x Hf) as [Sr Sw].
  assert (Hl : forall k o, In (k, Some o) (frd x) -> o < length (rds n)).
  { intros k o H. apply (wf_rids n WFn f x k o Hf). apply (In_mfind (frd x) None); assumption. }
  destruct (dropReaders_ok n f (frd x) WFn Hl) as (n1 & E1 & W1 & F1 & L1). rewrite E1. cbn [bind].
  assert (Hf1 : mfind f (fs n1) = Some x) by congruence.
  assert (W2 : WF (putF n1 f (setRd x []))).
  { apply wf_setRd; [exact W1|exact Hf1|exact I|]. intros r o H. discriminate. }
  destruct (clearReaders_ok (putF n1 f (setRd x [])) (frd x) W2) as (n2 & E2 & W3 & F2 & L2).
  { cbn. rewrite L1. exact Hl. }
  rewrite E2. cbn [bind].
  destruct (clearWriters_ok f (fwr x) n2 (setRd x []) W3) as (n3 & E3 & W4 & R3 & F3).
  { rewrite F2. cbn. rewrite mfind_mset, Z.eqb_refl. reflexivity. }
  { reflexivity. }
  rewrite E3. cbn [bind]. eexists. split; [reflexivity|].
  assert (FF : fs n3 = mset f (setWr (setRd x []) []) (fs n)).
  { rewrite F3, F2. cbn. rewrite F1, mset_mset. reflexivity. }
  cbn [fs rds]. split; [|split; [rewrite FF; apply (mdel_mset (fs n) None); apply S|rewrite R3, L2; cbn; exact L1]].
  destruct W4 as [[A1 A2] B C]. constructor; cbn.
  - split; cbn; [apply msorted_mdel, A1|]. intros g y Hg. rewrite mfind_mdel in Hg by exact A1.
    destruct (g =? f)%Z; [discriminate|]. apply (A2 g y Hg).
  - intros g y r o Hg Hr. cbn in *. rewrite mfind_mdel in Hg by exact A1. destruct (g =? f)%Z; [discriminate|].
    apply (B g y r o Hg Hr).
  - eapply heap_ext; [| |exact C]; [|reflexivity]. intros q. cbn. pose proof (wptrs_mdel q (fs n3) f) as E.
    rewrite FF in E at 2. rewrite mfind_mset, Z.eqb_refl in E. cbn in E. lia.
Qed.
