From Verif Require Import Base Bytes TxModel HspModel HspSpec.
Local Open Scope list_scope.
Local Open Scope Z_scope.

Lemma config_app a b : config (a ++ b) = config a ++ config b.
Proof. apply flat_map_app. Qed.
Lemma len_app' (a b : bytes) : len (a ++ b) = len a + len b.
Proof. unfold len. rewrite app_length. lia. Qed.
Lemma len_nn (a : bytes) : 0 <= len a.
Proof. unfold len. lia. Qed.
Lemma firstn_S_nth (A : Type) (l : list A) : forall k x, nth_error l k = Some x -> firstn (S k) l = firstn k l ++ [x].
Proof. induction l; intros [|k] x H; try discriminate; [injection H as ->; reflexivity|]. cbn [firstn app]. f_equal. apply IHl, H. Qed.
Lemma config_mono (rs : list bytes) a b : (a <= b)%nat -> len (config (firstn a rs)) <= len (config (firstn b rs)).
Proof.
  intros H. replace (firstn b rs) with (firstn a rs ++ skipn a (firstn b rs)).
  2:{ replace (firstn a rs) with (firstn a (firstn b rs)); [apply firstn_skipn|]. rewrite firstn_firstn. f_equal. lia. }
  rewrite config_app, len_app'. pose proof (len_nn (config (skipn a (firstn b rs)))). lia.
Qed.

Lemma request_unit s u t f : (length (records f) <= injected f)%nat -> roomy (Request s u t) ->
  request s u t f = (mkF (records f) (injected f) (extradata f) (4 + Z.min (len u) (s - 4)) t (info f), frameFor (Request s u t)).
Proof.
  intros C R. cbn [roomy] in R. unfold request. apply nth_error_None in C. rewrite C. change (len startCode) with 4.
  unfold w32 at 1 2 3 4 5 6. rewrite !(Z.mod_small (s - 4)) by lia.
  assert (L : len (firstn (Z.to_nat (s - 4)) u) = Z.min (len u) (s - 4)) by (unfold len; rewrite firstn_length; lia).
  rewrite !L. pose proof (len_nn u). destruct (Z.ltb_spec s (4 + Z.min (len u) (s - 4))); [lia|].
  unfold w32. rewrite !Z.mod_small by lia.
  assert (W : firstn (Z.to_nat (s - 4)) u = firstn (Z.to_nat (Z.min (len u) (s - 4))) u).
  { destruct (Z.leb_spec (len u) (s - 4)).
    - rewrite Z.min_l by lia. rewrite !firstn_all2; [reflexivity| |]; unfold len in *; lia.
    - rewrite Z.min_r by lia. reflexivity. }
  assert (L2 := L). rewrite W in L2. rewrite W, L2. unfold frameFor. cbv zeta. rewrite (Z.add_comm (Z.min _ _) 4). reflexivity.
Qed.
Lemma request_record s u t f r : nth_error (records f) (injected f) = Some r -> extradata f = config (firstn (injected f) (records f)) ->
  len (config (firstn (S (injected f)) (records f))) <= 128 ->
  request s u t f = (mkF (records f) (S (injected f)) (config (firstn (S (injected f)) (records f))) (frameSize f) (frameTime f) (info f),
                     Handed (frameSize f) None (frameTime f) 0).
Proof.
  intros N X L. unfold request. rewrite N, X. rewrite (firstn_S_nth _ _ _ _ N) in *. rewrite config_app in *. cbn [config flat_map] in *.
  rewrite app_nil_r in *. unfold startCode. change maxExtradata with 128. destruct (Z.ltb_spec 128 (len (config (firstn (injected f) (records f)) ++ [0; 0; 0; 1] ++ r))); [lia|]. reflexivity.
Qed.
Lemma request_record_broken s u t f r : nth_error (records f) (injected f) = Some r -> extradata f = config (firstn (injected f) (records f)) ->
  128 < len (config (firstn (S (injected f)) (records f))) -> request s u t f = (f, Broken).
Proof.
  intros N X L. unfold request. rewrite N, X. rewrite (firstn_S_nth _ _ _ _ N) in *. rewrite config_app in *. cbn [config flat_map] in *.
  rewrite app_nil_r in *. unfold startCode. change maxExtradata with 128. destruct (Z.ltb_spec 128 (len (config (firstn (injected f) (records f)) ++ [0; 0; 0; 1] ++ r))); [reflexivity|lia].
Qed.

(** The invariant of every state. *)
Definition inv (rs : list bytes) (f : hfilter) : Prop :=
  records f = rs /\ (injected f <= length rs)%nat /\ extradata f = config (firstn (injected f) rs).
Lemma inv_new rs g : inv rs (newFilter rs g).
Proof. repeat split; cbn; lia. Qed.

Lemma units_run rs es : forall f, inv rs f -> injected f = length rs -> Forall roomy es ->
  exists f', hrun es f = (f', map frameFor es) /\ inv rs f' /\ injected f' = length rs /\ info f' = info f.
Proof.
  induction es as [|e es IH]; intros f I C R; [exists f; repeat split; try apply I; assumption|].
  apply Forall_cons_iff in R. destruct R as [R1 R]. destruct e as [s u t|]; [|destruct R1]. destruct I as (I1 & I2 & I3).
  cbn [hrun hstep]. rewrite request_unit by (try assumption; rewrite I1; lia). cbn [frameFor].
  match goal with |- context [hrun es ?x] => destruct (IH x) as (f' & E & J & K & L) end; try assumption.
  { split; [exact I1|]. split; [exact I2|exact I3]. }
  exists f'. rewrite E. cbn [map frameFor]. repeat split; try apply J; assumption.
Qed.
Lemma requests_run rs es : forall f, inv rs f -> Forall roomy es -> len (config (firstn (injected f + length es) rs)) <= 128 ->
  exists f', hrun es f = (f', repeat (Handed (frameSize f) None (frameTime f) 0) (min (length es) (length rs - injected f)) ++
                              map frameFor (skipn (length rs - injected f) es)) /\
             inv rs f' /\ injected f' = min (injected f + length es) (length rs) /\ info f' = info f.
Proof.
  induction es as [|e es IH]; intros f I R F.
  { exists f. rewrite skipn_nil. cbn. rewrite Nat.add_0_r. repeat split; try apply I. destruct I as (_ & I & _). lia. }
  destruct (Nat.eq_dec (injected f) (length rs)) as [C|C].
  { destruct (units_run rs (e :: es) f I C R) as (f' & E & J & K & L). exists f'. rewrite C, Nat.sub_diag, Nat.min_0_r. cbn [repeat app skipn].
    repeat split; try apply J; try assumption. rewrite K. lia. }
  pose proof R as R0. apply Forall_cons_iff in R. destruct R as [R1 R]. destruct e as [s u t|]; [|destruct R1]. destruct I as (I1 & I2 & I3).
  destruct (nth_error (records f) (injected f)) as [r|] eqn:N; [|apply nth_error_None in N; rewrite I1 in N; lia].
  cbn [hrun hstep]. rewrite (request_record _ _ _ _ _ N) by (rewrite ?I1; try assumption; pose proof (config_mono rs (S (injected f)) (injected f + length (Request s u t :: es)) ltac:(cbn [length]; lia)); lia).
  match goal with |- context [hrun es ?x] => destruct (IH x) as (f' & E & J & K & L) end; try assumption.
  { split; [exact I1|]. split; [cbn [injected]; lia|]. cbn [extradata injected]. rewrite I1. reflexivity. }
  { cbn [injected]. cbn [length] in F. rewrite Nat.add_succ_r in F. cbn [Nat.add]. exact F. }
  exists f'. cbn [injected frameSize frameTime info] in *. rewrite E. destruct (length rs - injected f)%nat as [|m] eqn:M; [lia|].
  replace (length rs - S (injected f))%nat with m by lia. cbn [length Nat.min repeat app skipn]. repeat split; try apply J; try assumption. rewrite K. lia.
Qed.
Lemma requests_break rs es : forall f, inv rs f -> Forall roomy es -> 128 < len (config (firstn (injected f + length es) rs)) ->
  len (config (firstn (injected f) rs)) <= 128 -> In Broken (snd (hrun es f)).
Proof.
  induction es as [|e es IH]; intros f I R F G.
  { cbn [length] in F. rewrite Nat.add_0_r in F. lia. }
  destruct (Nat.eq_dec (injected f) (length rs)) as [C|C].
  { rewrite C in *. rewrite firstn_all2 in F by lia. rewrite firstn_all in G. lia. }
  apply Forall_cons_iff in R. destruct R as [R1 R]. destruct e as [s u t|]; [|destruct R1]. destruct I as (I1 & I2 & I3).
  destruct (nth_error (records f) (injected f)) as [r|] eqn:N; [|apply nth_error_None in N; rewrite I1 in N; lia].
  cbn [hrun hstep]. destruct (Z.leb_spec (len (config (firstn (S (injected f)) rs))) 128).
  - rewrite (request_record _ _ _ _ _ N) by (rewrite ?I1; assumption).
    match goal with |- context [hrun es ?x] => pose proof (IH x) as E; destruct (hrun es x) as [f' os] end.
    cbn [snd] in *. right. apply E; try assumption.
    + split; [exact I1|]. split; [cbn [injected]; lia|]. cbn [extradata injected]. rewrite I1. reflexivity.
    + cbn [injected]. cbn [length] in F. rewrite Nat.add_succ_r in F. exact F.
  - rewrite (request_record_broken _ _ _ _ _ N) by (rewrite ?I1; assumption). left. reflexivity.
Qed.

(** The stream info never changes. *)
Lemma info_kept es : forall f e, info f = Some e -> info (fst (hrun es f)) = Some e /\ (forall x, In (Info x) (snd (hrun es f)) -> x = e).
Proof.
  induction es as [|ev es IH]; intros f e I; [split; [exact I|intros x []]|].
  cbn [hrun]. destruct (hstep ev f) as [f1 o] eqn:H.
  assert (I1 : info f1 = Some e /\ (forall x, o = Info x -> x = e)).
  { destruct ev as [s u t|]; cbn [hstep] in H.
    - unfold request in H. destruct (nth_error _ _); match type of H with (if ?b then _ else _) = _ => destruct b end; injection H as <- <-; (split; [exact I|intros x X; discriminate]).
    - unfold connect in H. rewrite I in H. injection H as <- <-. split; [reflexivity|]. intros x X. injection X as <-. reflexivity. }
  destruct I1 as [I1 I2]. destruct (IH f1 e I1) as [J1 J2]. destruct (hrun es f1) as [f2 os]. cbn [fst snd] in *.
  destruct o; cbn [fst snd].
  - split; [exact J1|]. intros x [X|X]; [discriminate|auto].
  - split; [exact J1|]. intros x [X|X]; [injection X as ->; auto|auto].
  - split; [exact I1|]. intros x [X|[]]. discriminate.
Qed.
Lemma hrun_app es1 : forall es2 f, ~ In Broken (snd (hrun es1 f)) ->
  hrun (es1 ++ es2) f = (fst (hrun es2 (fst (hrun es1 f))), snd (hrun es1 f) ++ snd (hrun es2 (fst (hrun es1 f)))).
Proof.
  induction es1 as [|e es1 IH]; intros es2 f N; [cbn [app hrun fst snd]; apply surjective_pairing|].
  cbn [app hrun] in *. destruct (hstep e f) as [f1 o]. specialize (IH es2 f1).
  destruct (hrun es1 f1) as [f2 os] eqn:E. cbn [fst snd] in *.
  destruct o; cbn [fst snd] in *; [| |exfalso; apply N; left; reflexivity];
    (rewrite IH by (intros X; apply N; right; exact X); reflexivity).
Qed.
