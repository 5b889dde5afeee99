From Verif Require Import Base ZMap SeqModel SeqSpec.
Local Open Scope list_scope.
Local Open Scope Z_scope.

Lemma deliver_keys k now src w : forall ws first js, mkeys (fst (deliverAll k now src w first ws js)) = mkeys ws.
Proof.
  induction ws as [|[i wr] r IH]; intros first js; [reflexivity|]. cbn [deliverAll]. destruct (stamped _ _ _ _ _ _ _) as [s n].
  specialize (IH false (if marked w i then readers wr ++ js else js)). destruct (deliverAll _ _ _ _ _ r _) as [r' p]. cbn [fst mkeys map] in *. rewrite IH. reflexivity.
Qed.
Lemma sorted_keys {A} {B} : forall (m : zmap A) (m' : zmap B) lo, mkeys m' = mkeys m -> sorted_from lo m -> sorted_from lo m'.
Proof.
  induction m as [|[k v] m IH]; intros [|[k' v'] m'] lo E S; try discriminate; [exact Logic.I|].
  cbn [mkeys map fst] in E. injection E as -> E. destruct S as [S1 S2]. split; [exact S1|]. eapply IH; [exact E|exact S2].
Qed.
Lemma deliver_length k now src w ws first js : length (fst (deliverAll k now src w first ws js)) = length ws.
Proof. pose proof (f_equal (@length _) (deliver_keys k now src w ws first js)) as H. unfold mkeys in H. rewrite !map_length in H. exact H. Qed.

(** What happens to writer [i]. *)
Lemma deliver_find k now src w i : forall ws first js wr, msorted ws -> mfind i ws = Some wr ->
  exists f, (f = true <-> first = true /\ exists v r, ws = (i, v) :: r) /\
  let sn := stamped k now src w f i wr in
  let (ws', p) := deliverAll k now src w first ws js in
  mfind i ws' = Some (mkWr (snd sn) (readers wr)) /\
  List.filter (fun x => fst x =? i) (handed p) = if marked w i then [(i, fst sn)] else [].
Proof.
  assert (NONE : forall ws first js lo, sorted_from (Some lo) ws -> i <= lo -> List.filter (fun x => fst x =? i) (handed (snd (deliverAll k now src w first ws js))) = []).
  { induction ws as [|[j v] r IH]; intros first js lo S L; [reflexivity|]. destruct S as [S1 S2]. cbn [deliverAll].
    destruct (stamped _ _ _ _ _ _ _) as [s n]. specialize (IH false (if marked w j then readers v ++ js else js) j S2 ltac:(lia)).
    destruct (deliverAll _ _ _ _ _ r _) as [r' p]. cbn [snd] in *. destruct (marked w j); [|exact IH]. cbn [handed List.filter fst].
    destruct (Z.eqb_spec j i); [lia|exact IH]. }
  induction ws as [|[j v] r IH]; intros first js wr S F; [discriminate|]. cbn [mfind] in F. destruct S as [_ S].
  destruct (Z.eqb_spec i j) as [<-|N].
  - injection F as <-. exists first. split.
    { split; [intros ->; split; [reflexivity|exists v, r; reflexivity]|intros [-> _]; reflexivity]. }
    cbn [deliverAll]. destruct (stamped _ _ _ _ _ _ _) as [s n] eqn:E. specialize (NONE r false (if marked w i then readers v ++ js else js) i S ltac:(lia)).
    destruct (deliverAll _ _ _ _ _ r _) as [r' p]. cbn [snd fst mfind] in *. rewrite Z.eqb_refl. split; [reflexivity|].
    destruct (marked w i); [|exact NONE]. cbn [handed List.filter fst]. rewrite Z.eqb_refl, NONE. reflexivity.
  - destruct (IH false (if marked w j then readers v ++ js else js) wr (sorted_weaken _ _ S) F) as (f & D & H).
    exists f. split.
    { split; [intros X; apply D in X; destruct X; discriminate|intros [_ (v' & r' & X)]; injection X as X _; congruence]. }
    cbn [deliverAll]. destruct (stamped k now src w first j v) as [s n]. destruct (deliverAll _ _ _ _ _ r _) as [r' p]. cbn [mfind].
    destruct (Z.eqb_spec i j); [contradiction|]. destruct H as [H1 H2]. split; [exact H1|].
    destruct (marked w j); [|exact H2]. cbn [handed List.filter fst]. destruct (Z.eqb_spec j i); [congruence|exact H2].
Qed.

Definition inv (s : stage) : Prop :=
  msorted (writers s) /\ (skind s = ManyToOne -> maxWriters s = 1 /\ Z.of_nat (length (writers s)) <= 1).

Lemma sstep_fixed e s s' p : sstep e s = Some (s', p) -> skind s' = skind s /\ srole s' = srole s /\ sid s' = sid s /\ periodic s' = periodic s /\ maxWriters s' = maxWriters s.
Proof.
  destruct e as [now input src w|i g rs|i]; cbn [sstep].
  - unfold process. destruct (srole s) eqn:R.
    + destruct (input && _); [|intros H; injection H as <- _; auto].
      destruct (writers s) as [|x ws]; [destruct (needsWriter _); [discriminate|intros H; injection H as <- _; auto]|].
      destruct (deliverAll _ _ _ _ _ _ _); intros H; injection H as <- _; cbn; rewrite ?R; auto.
    + destruct (writers s) as [|x ws]; [destruct (needsWriter _); [discriminate|intros H; injection H as <- _; auto]|].
      destruct (deliverAll _ _ _ _ _ _ _); intros H; injection H as <- _; cbn; rewrite ?R; auto.
    + intros H; injection H as <- _; auto.
  - destruct (_ || _); [intros H; injection H as <- _; auto|]. destruct g; intros H; injection H as <- _; cbn; auto.
  - intros H; injection H as <- _; cbn; auto.
Qed.
(** A round does nothing, or delivers. *)
Lemma round_cases now input src w s s' p : sstep (SRound now input src w) s = Some (s', p) ->
  (runs (srole s) input = true /\ exists p0, deliverAll (skind s) now src w true (writers s) [] = (writers s', p0) /\ p = withSelf s p0) \/
  (s' = s /\ p = withSelf s (mkPr [] []) /\ (runs (srole s) input = false \/ writers s = [])).
Proof.
  cbn [sstep]. unfold process. destruct (srole s) eqn:R; cbn [runs].
  - destruct (writers s) as [|x ws] eqn:W.
    + rewrite andb_false_r. intros H; injection H as <- <-. right. auto.
    + rewrite andb_true_r. destruct input; [|intros H; injection H as <- <-; right; auto].
      destruct (deliverAll _ _ _ _ _ _ _) as [ws' p0] eqn:D; intros H; injection H as <- <-. left. split; [reflexivity|]. exists p0. cbn [writers]. auto.
  - destruct (writers s) as [|x ws] eqn:W.
    + destruct (needsWriter _); [discriminate|]. intros H; injection H as <- <-. right. auto.
    + destruct (deliverAll _ _ _ _ _ _ _) as [ws' p0] eqn:D; intros H; injection H as <- <-. left. split; [reflexivity|]. exists p0. cbn [writers]. auto.
  - intros H; injection H as <- <-. right. auto.
Qed.
Lemma inv_step e s s' p : inv s -> sstep e s = Some (s', p) -> inv s'.
Proof.
  intros [S L] H. destruct (sstep_fixed _ _ _ _ H) as (FK & _ & _ & _ & FM). unfold inv. rewrite FK, FM.
  destruct e as [now input src w|i g rs|i].
  - destruct (round_cases _ _ _ _ _ _ _ H) as [(_ & p0 & D & _)|(-> & _)]; [|auto].
    pose proof (deliver_keys (skind s) now src w (writers s) true []) as K. pose proof (deliver_length (skind s) now src w (writers s) true []) as N. rewrite D in K, N. cbn [fst] in K, N.
    split; [eapply sorted_keys; [exact K|exact S]|]. rewrite N. exact L.
  - cbn [sstep] in H. destruct ((maxWriters s <=? Z.of_nat (length (writers s))) || mmem i (writers s)) eqn:B; [injection H as <- _; auto|].
    apply orb_false_iff in B. destruct B as [B1 B2]. destruct g; injection H as <- _; [|auto]. cbn [setWriters writers]. split; [apply msorted_mset, S|].
    intros K. destruct (L K) as [L1 L2]. split; [exact L1|]. apply Z.leb_gt in B1. rewrite mset_length_new; [lia|].
    unfold mmem in B2. destruct (mfind i (writers s)); [discriminate|reflexivity].
  - injection H as <- _. cbn [setWriters writers]. split; [apply msorted_mdel, S|]. intros K. destruct (L K) as [L1 L2]. split; [exact L1|].
    destruct (mfind i (writers s)) eqn:E; [pose proof (mdel_length (writers s) i ltac:(congruence)); lia|rewrite mdel_absent by exact E; exact L2].
Qed.
Lemma inv_run es : forall s, inv s -> inv (fst (fst (srun es s))).
Proof.
  induction es as [|e es IH]; intros s I; [exact I|]. cbn [srun]. destruct (sstep e s) as [[s' p]|] eqn:E; [|exact I].
  specialize (IH s' (inv_step _ _ _ _ I E)). destruct (srun es s') as [[s'' ps] b]. exact IH.
Qed.

Lemma filter_app' {A} (f : A -> bool) l1 l2 : List.filter f (l1 ++ l2) = List.filter f l1 ++ List.filter f l2.
Proof. apply filter_app. Qed.
Lemma stampsOf_cons i p ps : stampsOf i (p :: ps) = map snd (List.filter (fun x => fst x =? i) (handed p)) ++ stampsOf i ps.
Proof. unfold stampsOf. cbn [map concat]. rewrite filter_app, map_app. reflexivity. Qed.

Definition stampIn (k : kind) (i n : Z) (e : sevent) : stamp :=
  match k with Head | ManyToOne => mkSt n (timeOf e) | OneToMany => sourceOf e | OneToOne => ownOf i e end.
(** One event, seen from writer [i]. *)
Lemma step_writer e s s' p i wr : inv s -> honest (skind s) e -> keeps i e -> mfind i (writers s) = Some wr -> sstep e s = Some (s', p) ->
  let b := produces (srole s) i e in
  map snd (List.filter (fun x => fst x =? i) (handed p)) = (if b then [stampIn (skind s) i (next wr) e] else []) /\
  exists n, mfind i (writers s') = Some (mkWr n (readers wr)) /\
    match skind s with Head | ManyToOne => n = if b then w64 (next wr + 1) else next wr | _ => n = next wr end.
Proof.
  intros I Hh K F H b. destruct e as [now input src w|j g rs|j].
  - destruct (round_cases _ _ _ _ _ _ _ H) as [(R & p0 & D & ->)|(-> & -> & C)].
    + destruct (deliver_find (skind s) now src w i (writers s) true [] wr (proj1 I) F) as (f & Df & X). rewrite D in X. cbv zeta in X. destruct X as [X1 X2].
      cbn [withSelf handed]. rewrite X2. unfold b. cbn [produces]. rewrite R. cbn [andb].
      assert (FT : skind s = ManyToOne -> f = true).
      { intros Q. apply Df. split; [reflexivity|]. destruct I as [_ L]. destruct (L Q) as [_ L2]. destruct (writers s) as [|[j v] [|y r]]; [discriminate| |cbn [length] in L2; lia].
        cbn [mfind] in F. destruct (Z.eqb_spec i j) as [<-|]; [eauto|discriminate]. }
      cbn [honest] in Hh. unfold stamped in *. split.
      * destruct (marked w i) eqn:M; [|reflexivity]. cbn [map snd]. f_equal. unfold stampIn. destruct (skind s) eqn:Q; cbn [timeOf sourceOf ownOf].
        -- destruct (ok w); reflexivity.
        -- rewrite (Hh i M). reflexivity.
        -- rewrite (Hh i M). reflexivity.
        -- rewrite <- (Hh i), M, FT by reflexivity. reflexivity.
      * eexists. split; [exact X1|]. destruct (skind s) eqn:Q.
        -- destruct (ok w); reflexivity.
        -- destruct (ok w); reflexivity.
        -- destruct (marked w i) eqn:M; [rewrite (Hh i M); reflexivity|destruct (ok w); reflexivity].
        -- rewrite FT by reflexivity. rewrite <- (Hh i). destruct (marked w i); reflexivity.
    + assert (B : b = false).
      { unfold b. cbn [produces]. destruct C as [->|C]; [reflexivity|]. rewrite C in F. discriminate. }
      rewrite B. cbn [withSelf handed List.filter map]. split; [reflexivity|]. exists (next wr). split; [rewrite F; destruct wr; reflexivity|]. destruct (skind s); reflexivity.
  - assert (P : p = mkPr [] [] /\ mfind i (writers s') = Some wr).
    { cbn [sstep] in H. destruct ((maxWriters s <=? Z.of_nat (length (writers s))) || mmem j (writers s)) eqn:B; [injection H as <- <-; auto|].
      destruct g; injection H as <- <-; [|auto]. split; [reflexivity|]. cbn [setWriters writers]. rewrite mfind_mset_neq; [exact F|].
      intros ->. apply orb_false_iff in B. destruct B as [_ B]. unfold mmem in B. rewrite F in B. discriminate. }
    destruct P as [-> P]. split; [reflexivity|]. exists (next wr). split; [rewrite P; destruct wr; reflexivity|]. destruct (skind s); reflexivity.
  - injection H as <- <-. split; [reflexivity|]. exists (next wr). split; [|destruct (skind s); reflexivity].
    cbn [setWriters writers]. rewrite mfind_mdel_neq; [rewrite F; destruct wr; reflexivity|]. intros ->. apply K. reflexivity.
Qed.

Definition expectedFrom (k : kind) (r : role) (i n : Z) (es : list sevent) : list stamp :=
  let rounds := List.filter (produces r i) es in
  match k with
  | Head | ManyToOne => numbered n (map timeOf rounds)
  | OneToMany => map sourceOf rounds
  | OneToOne => map (ownOf i) rounds
  end.
Lemma w64_small z : w64 z = z mod 2 ^ 64.
Proof. reflexivity. Qed.
Lemma numbered_mod ts : forall n, numbered (n mod 2 ^ 64) ts = numbered n ts.
Proof.
  induction ts as [|t ts IH]; intros n; [reflexivity|]. cbn [numbered]. rewrite Z.mod_mod by discriminate. f_equal.
  rewrite <- IH. rewrite Zplus_mod_idemp_l. apply IH.
Qed.
Lemma run_writer es : forall s i wr, inv s -> Forall (honest (skind s)) es -> Forall (keeps i) es -> mfind i (writers s) = Some wr ->
  next wr = next wr mod 2 ^ 64 ->
  snd (srun es s) = true -> stampsOf i (snd (fst (srun es s))) = expectedFrom (skind s) (srole s) i (next wr) es.
Proof.
  induction es as [|e es IH]; intros s i wr I Hh K F W.
  { intros _. unfold expectedFrom. cbn. destruct (skind s); reflexivity. }
  cbn [srun]. destruct (sstep e s) as [[s' p]|] eqn:E; [|intros X; discriminate X].
  apply Forall_cons_iff in Hh. destruct Hh as [Hh1 Hh]. apply Forall_cons_iff in K. destruct K as [K1 K].
  destruct (step_writer e s s' p i wr I Hh1 K1 F E) as (P & n & F' & N).
  destruct (sstep_fixed _ _ _ _ E) as (FK & FR & _).
  assert (W' : n = n mod 2 ^ 64).
  { destruct (skind s); try (subst n; exact W); (destruct (produces (srole s) i e); subst n; [rewrite w64_small, Z.mod_mod by discriminate; reflexivity|exact W]). }
  pose proof (IH s' i _ (inv_step _ _ _ _ I E) ltac:(rewrite FK; exact Hh) K F' W') as IH'.
  destruct (srun es s') as [[s'' ps] b]. cbn [fst snd] in *. intros B.
  rewrite stampsOf_cons, P, (IH' B), FK, FR. unfold expectedFrom. cbn [List.filter next].
  destruct (produces (srole s) i e); [|destruct (skind s); subst n; reflexivity].
  destruct (skind s); cbn [map app stampIn]; try reflexivity; cbn [numbered]; rewrite <- W; f_equal; subst n; rewrite w64_small; apply numbered_mod.
Qed.

(** The filters woken by a round. *)
Lemma deliver_jobs k now src w x : forall ws first js,
  In x (jobs (snd (deliverAll k now src w first ws js))) <-> In x js \/ exists i wr, In (i, wr) ws /\ marked w i = true /\ In x (readers wr).
Proof.
  induction ws as [|[i wr] r IH]; intros first js.
  { cbn. split; [auto|intros [H|(i & wr & [] & _)]; exact H]. }
  cbn [deliverAll]. destruct (stamped _ _ _ _ _ _ _) as [s n]. specialize (IH false (if marked w i then readers wr ++ js else js)).
  destruct (deliverAll _ _ _ _ _ r _) as [r' p]. cbn [snd] in *.
  assert (E : jobs (if marked w i then mkPr ((i, s) :: handed p) (jobs p) else p) = jobs p) by (destruct (marked w i); reflexivity).
  rewrite E, IH. destruct (marked w i) eqn:M.
  - rewrite in_app_iff. split.
    + intros [[H|H]|(j & v & I & X)]; [right; exists i, wr; cbn; auto|auto|right; exists j, v; cbn; auto].
    + intros [H|(j & v & [Q|I] & X)]; [auto|injection Q as <- <-; left; left; apply X|right; exists j, v; auto].
  - split.
    + intros [H|(j & v & I & X)]; [auto|right; exists j, v; cbn; auto].
    + intros [H|(j & v & [Q|I] & X)]; [auto|injection Q as <- <-; destruct X; congruence|right; exists j, v; auto].
Qed.
Lemma srun_app es1 : forall es2 s, snd (srun es1 s) = true ->
  let m := fst (fst (srun es1 s)) in
  srun (es1 ++ es2) s = (fst (fst (srun es2 m)), snd (fst (srun es1 s)) ++ snd (fst (srun es2 m)), snd (srun es2 m)).
Proof.
  induction es1 as [|e es1 IH]; intros es2 s B; [cbn; destruct (srun es2 s) as [[a b] c]; reflexivity|].
  cbn [app srun] in *. destruct (sstep e s) as [[s' p]|]; [|discriminate B]. specialize (IH es2 s').
  destruct (srun es1 s') as [[s1 ps] b]. cbn [fst snd] in *. rewrite (IH B). reflexivity.
Qed.
