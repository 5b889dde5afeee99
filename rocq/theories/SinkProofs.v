(** Proofs about the connection bookkeeping. *)
From Coq Require Import Permutation.
From Verif Require Import Base ZMap SinkModel SinkSpec.
Local Open Scope list_scope.
Local Open Scope Z_scope.

Definition acct (s : sinks) : list Z := live s ++ srel s ++ sleak s.
Definition okConn (s : sinks) (c : conn) : Prop :=
  NoDup (clisted c) /\ (forall r, In r (clisted c) -> In r (cused c) /\ exists_ r s) /\ (forall r, In r (cused c) -> r <> -1 -> In r (clisted c)).
Record inv0 (s : sinks) : Prop := {
  i_rd : msorted (srd s); i_src : msorted (ssrc s); i_con : msorted (scon s);
  i_once : NoDup (acct s);
  i_next : 0 <= snext s;
  i_all : forall o, In o (acct s) <-> 0 <= o < snext s }.
Record inv (s : sinks) : Prop := {
  i_0 : inv0 s;
  i_srcs : forall r, exists_ r s -> mmem r (ssrc s) = true;
  i_ok : forall id c, mfind id (scon s) = Some c -> okConn s c }.

(** *** Maps *)
Lemma mmem_mset (A : Type) k k2 (v : A) m : mmem k2 (mset k v m) = (k2 =? k) || mmem k2 m.
Proof. unfold mmem. rewrite mfind_mset. destruct (k2 =? k); reflexivity. Qed.
Lemma mset_fresh (A B : Type) (f : A -> B) k (v : A) : forall m, mfind k m = None -> Permutation (map (fun x => f (snd x)) (mset k v m)) (f v :: map (fun x => f (snd x)) m).
Proof.
  induction m as [|[k0 v0] m IH]; intros H; [reflexivity|]. cbn [mfind mset] in *.
  destruct (Z.eqb_spec k k0); [discriminate|]. destruct (Z.ltb_spec k k0); cbn [map snd]; [reflexivity|].
  cbn [map snd]. rewrite IH by exact H. apply perm_swap.
Qed.
Lemma mdel_found (A B : Type) (f : A -> B) k (v : A) : forall m, mfind k m = Some v -> Permutation (map (fun x => f (snd x)) m) (f v :: map (fun x => f (snd x)) (mdel k m)).
Proof.
  induction m as [|[k0 v0] m IH]; intros H; [discriminate|]. cbn [mfind mdel] in *.
  destruct (Z.eqb_spec k k0).
  - injection H as ->. reflexivity.
  - cbn [map snd]. rewrite (IH H). apply perm_swap.
Qed.
Lemma mdel_absent (A : Type) k : forall m : zmap A, mfind k m = None -> mdel k m = m.
Proof.
  induction m as [|[k0 v0] m IH]; intros H; [reflexivity|]. cbn [mfind mdel] in *. destruct (Z.eqb_spec k k0); [discriminate|]. rewrite IH by exact H. reflexivity.
Qed.

(** *** Accounting *)
Lemma acct_perm s s' : Permutation (acct s') (acct s) -> snext s' = snext s -> NoDup (acct s) -> (forall o, In o (acct s) <-> 0 <= o < snext s) ->
  NoDup (acct s') /\ forall o, In o (acct s') <-> 0 <= o < snext s'.
Proof.
  intros P E N A. split; [apply (Permutation_NoDup (Permutation_sym P) N)|]. intros o. rewrite E, <- A.
  split; apply Permutation_in; [exact P|apply Permutation_sym, P].
Qed.
Lemma acct_new s s' : Permutation (acct s') (snext s :: acct s) -> snext s' = snext s + 1 -> 0 <= snext s -> NoDup (acct s) -> (forall o, In o (acct s) <-> 0 <= o < snext s) ->
  NoDup (acct s') /\ forall o, In o (acct s') <-> 0 <= o < snext s'.
Proof.
  intros P E Z0 N A. split.
  - apply (Permutation_NoDup (Permutation_sym P)). constructor; [|exact N]. rewrite A. lia.
  - intros o. rewrite E. split.
    + intros I. apply (Permutation_in _ P) in I. destruct I as [<-|I]; [lia|]. apply A in I. lia.
    + intros I. apply (Permutation_in _ (Permutation_sym P)). destruct (Z.eq_dec o (snext s)) as [->|X]; [left; reflexivity|]. right. apply A. lia.
Qed.
Lemma acct_keep id u l s : mfind id (scon s) = None -> Permutation (acct (keep id u l s)) (snext s :: acct s).
Proof. intros N. unfold acct, live, keep. cbn [scon srel sleak]. rewrite (mset_fresh _ _ cobj id _ _ N). reflexivity. Qed.
Lemma acct_discard s : Permutation (acct (discard s)) (snext s :: acct s).
Proof. unfold acct, live, discard. cbn [scon srel sleak]. rewrite <- app_assoc. cbn [app]. rewrite app_assoc. rewrite <- Permutation_middle. rewrite <- app_assoc. reflexivity. Qed.
Lemma acct_forget s : Permutation (acct (forget s)) (snext s :: acct s).
Proof. unfold acct, live, forget. cbn [scon srel sleak]. rewrite !app_assoc. rewrite <- Permutation_cons_append. reflexivity. Qed.
Lemma inv0_keep id u l s : mfind id (scon s) = None -> inv0 s -> inv0 (keep id u l s).
Proof.
  intros N [A B C D E F]. destruct (acct_new s (keep id u l s) (acct_keep _ _ _ _ N) eq_refl E D F) as [D' F'].
  constructor; try assumption; unfold keep; cbn; [apply msorted_mset; exact C|lia].
Qed.
Lemma inv0_discard s : inv0 s -> inv0 (discard s).
Proof. intros [A B C D E F]. destruct (acct_new s (discard s) (acct_discard s) eq_refl E D F) as [D' F']. constructor; try assumption. cbn. lia. Qed.
Lemma inv0_forget s : inv0 s -> inv0 (forget s).
Proof. intros [A B C D E F]. destruct (acct_new s (forget s) (acct_forget s) eq_refl E D F) as [D' F']. constructor; try assumption. cbn. lia. Qed.
Lemma ok_same s s' c : srd s' = srd s -> okConn s c -> okConn s' c.
Proof. intros E (A & B & C). unfold okConn, exists_. rewrite E. split; [exact A|]. split; [exact B|exact C]. Qed.
Lemma inv_same s s' : srd s' = srd s -> ssrc s' = ssrc s -> scon s' = scon s -> inv0 s' -> inv s -> inv s'.
Proof.
  intros E1 E2 E3 I0 [_ B C]. constructor; [exact I0| |].
  - unfold exists_. rewrite E1, E2. exact B.
  - rewrite E3. intros id c M. apply (ok_same s); [exact E1|]. apply (C id c M).
Qed.
Lemma inv_discard s : inv s -> inv (discard s).
Proof. intros I. apply (inv_same s); try reflexivity; [apply inv0_discard, I|exact I]. Qed.
Lemma inv_forget s : inv s -> inv (forget s).
Proof. intros I. apply (inv_same s); try reflexivity; [apply inv0_forget, I|exact I]. Qed.
Lemma inv_keep id u l s : mfind id (scon s) = None -> inv s -> okConn s (mkC (snext s) u l) -> inv (keep id u l s).
Proof.
  intros N I O. constructor; [apply inv0_keep; [exact N|apply I]| |].
  - intros r X. apply (i_srcs s I). exact X.
  - intros i c. unfold keep at 1. cbn [scon]. rewrite mfind_mset. destruct (Z.eqb_spec i id) as [->|].
    + intros X. injection X as <-. apply (ok_same s); [reflexivity|exact O].
    + intros X. apply (ok_same s); [reflexivity|]. apply (i_ok s I i c X).
Qed.

(** *** Removal *)
Lemma deleteConns_spec : forall ids s, inv0 s ->
  let s' := deleteConns ids s in
  inv0 s' /\ srd s' = srd s /\ ssrc s' = ssrc s /\ sleak s' = sleak s /\ sclosed s' = sclosed s /\
  forall id, mfind id (scon s') = if existsb (Z.eqb id) ids then None else mfind id (scon s).
Proof.
  induction ids as [|i ids IH]; intros s I; cbn [deleteConns].
  - split; [exact I|]. repeat split; reflexivity.
  - set (s1 := mkS (srd s) (ssrc s) (mdel i (scon s)) _ _ _ _ _). destruct I as [A B C D E F].
    assert (P : Permutation (acct s1) (acct s)).
    { unfold acct, live, s1. cbn [scon srel sleak]. destruct (mfind i (scon s)) as [c|] eqn:M.
      - rewrite (mdel_found _ _ cobj i c (scon s) M) at 1. cbn [app]. rewrite <- app_assoc. cbn [app]. rewrite app_assoc.
        rewrite <- Permutation_middle. rewrite <- app_assoc. reflexivity.
      - rewrite mdel_absent by exact M. rewrite app_nil_r. reflexivity. }
    destruct (acct_perm s s1 P eq_refl D F) as [D' F'].
    assert (I1 : inv0 s1). { constructor; try assumption. unfold s1. cbn [scon]. apply msorted_mdel. exact C. }
    destruct (IH s1 I1) as (H1 & H2 & H3 & H4 & H5 & H6). split; [exact H1|]. split; [exact H2|]. split; [exact H3|]. split; [exact H4|]. split; [exact H5|].
    intros id. rewrite H6. unfold s1. cbn [scon existsb]. rewrite mfind_mdel by exact C. destruct (Z.eqb_spec id i); cbn [orb]; [|reflexivity].
    destruct (existsb (Z.eqb id) ids); reflexivity.
Qed.
Lemma connsOf_in r s id : msorted (scon s) -> In id (connsOf r s) <-> exists c, mfind id (scon s) = Some c /\ In r (clisted c).
Proof.
  intros M. unfold connsOf. rewrite in_flat_map. split.
  - intros ([i c] & I & J). cbn [fst snd] in J. apply in_flat_map in J. destruct J as (x & X & J). destruct (Z.eqb_spec x r); [|destruct J].
    destruct J as [<-|[]]. subst x. exists c. split; [apply (In_mfind _ _ _ _ M I)|exact X].
  - intros (c & F & X). exists (id, c). split; [apply mfind_In, F|]. apply in_flat_map. exists r. split; [exact X|]. rewrite Z.eqb_refl. left. reflexivity.
Qed.
Lemma existsb_in x l : existsb (Z.eqb x) l = true <-> In x l.
Proof. rewrite existsb_exists. split; [intros (y & A & B); apply Z.eqb_eq in B; subst; exact A|intros A; exists x; split; [exact A|apply Z.eqb_refl]]. Qed.
Lemma deleteConns_released : forall ids s id c, msorted (scon s) -> In id ids -> mfind id (scon s) = Some c -> In (cobj c) (srel (deleteConns ids s)).
Proof.
  assert (K : forall ids s o, In o (srel s) -> In o (srel (deleteConns ids s))).
  { induction ids as [|i ids IH]; intros s o H; [exact H|]. cbn [deleteConns]. apply IH. cbn [srel]. apply in_or_app. left. exact H. }
  induction ids as [|i ids IH]; intros s id c M I F; [destruct I|]. cbn [deleteConns].
  destruct (Z.eq_dec id i) as [->|N].
  - apply K. cbn [srel]. apply in_or_app. right. rewrite F. left. reflexivity.
  - destruct I as [->|I]; [congruence|]. apply (IH _ id c); [cbn [scon]; apply msorted_mdel, M|exact I|]. cbn [scon]. rewrite mfind_mdel by exact M.
    destruct (Z.eqb_spec id i); [congruence|exact F].
Qed.
Lemma exists_mdel r r2 s s' : msorted (srd s) -> srd s' = mdel r (srd s) -> (exists_ r2 s' <-> r2 <> r /\ exists_ r2 s).
Proof.
  intros M E. unfold exists_. rewrite E, mfind_mdel by exact M. destruct (Z.eqb_spec r2 r).
  - split; [intros (m & X); discriminate|intros [X _]; congruence].
  - split; [intros X; split; assumption|intros [_ X]; exact X].
Qed.
Lemma deleteReader_spec r s ok s' : inv s -> deleteReader r s = Done ok s' -> mfind r (srd s) <> None ->
  inv s' /\ srd s' = mdel r (srd s) /\ exists_ r s /\
  (forall id, mfind id (scon s') = if existsb (Z.eqb id) (connsOf r s) then None else mfind id (scon s)) /\
  (forall id c, mfind id (scon s) = Some c -> In r (clisted c) -> In (cobj c) (srel s')) /\
  (ok = true <-> connsOf r s <> []) /\ (ok = true -> mfind r (ssrc s') = None /\ exists o, mfind r (ssrc s) = Some o /\ sclosed s' = sclosed s ++ [o]) /\
  (ok = false -> ssrc s' = ssrc s /\ scon s' = scon s /\ sclosed s' = sclosed s) /\ sleak s' = sleak s.
Proof.
  intros I D NN. unfold deleteReader in D. destruct (mfind r (srd s)) as [[m|]|] eqn:FR; [|discriminate|congruence].
  assert (EX : exists_ r s) by (exists m; exact FR).
  set (s0 := mkS (mdel r (srd s)) (ssrc s) (scon s) (snext s) (ssnext s) (srel s) (sleak s) (sclosed s)) in *.
  destruct I as [I0 IS IO]. assert (I00 : inv0 s0). { destruct I0. constructor; try assumption. unfold s0. cbn [srd]. apply msorted_mdel. assumption. }
  unfold readerDelete, removeByReader in D. change (connsOf r s0) with (connsOf r s) in D. set (ids := connsOf r s) in *.
  destruct (deleteConns_spec ids s0 I00) as (A1 & A2 & A3 & A4 & A5 & A6).
  assert (REL : forall id c, mfind id (scon s) = Some c -> In r (clisted c) -> In (cobj c) (srel (deleteConns ids s0))).
  { intros id c F L. apply (deleteConns_released ids s0 id c); [apply I0| |exact F]. apply connsOf_in; [apply I0|]. exists c. split; assumption. }
  set (s1 := deleteConns ids s0) in *.
  destruct (mfind r (ssrc s)) as [o|] eqn:FO. 2:{ specialize (IS r EX). unfold mmem in IS. rewrite FO in IS. discriminate. }
  rewrite A3 in D. change (ssrc s0) with (ssrc s) in D. rewrite FO in D.
  assert (CON : forall id, mfind id (scon s1) = if existsb (Z.eqb id) ids then None else mfind id (scon s)) by exact A6.
  assert (OK : forall sx, srd sx = mdel r (srd s) -> scon sx = scon s1 -> forall id c, mfind id (scon sx) = Some c -> okConn sx c).
  { intros sx E1 E2 id c F. rewrite E2, CON in F. destruct (existsb (Z.eqb id) ids) eqn:EB; [discriminate|].
    destruct (IO id c F) as (B1 & B2 & B3). split; [exact B1|]. split; [|exact B3]. intros x X. destruct (B2 x X) as [C1 C2]. split; [exact C1|].
    apply (exists_mdel r x s sx); [apply I0|exact E1|]. split; [|exact C2]. intros ->.
    assert (Y : In id ids) by (apply connsOf_in; [apply I0|]; exists c; split; assumption). apply existsb_in in Y. congruence. }
  destruct ids as [|i0 ids0] eqn:EI.
  - injection D as <- <-. split; [|repeat split; try assumption; try congruence].
    constructor; [exact A1| |apply OK; [exact A2|reflexivity]].
    intros x X. rewrite A3. apply (exists_mdel r x s s1) in X; [apply IS, X|apply I0|exact A2].
  - rewrite <- EI in *. injection D as <- <-. split; [|].
    + constructor.
      * destruct A1. constructor; try assumption. cbn [ssrc]. apply msorted_mdel. apply I0.
      * intros x X. apply (exists_mdel r x s) in X; [|apply I0|exact A2]. cbn [ssrc]. change (ssrc s0) with (ssrc s). unfold mmem. rewrite mfind_mdel by apply I0.
        destruct (Z.eqb_spec x r); [destruct X; congruence|]. apply IS, X.
      * apply OK; [exact A2|reflexivity].
    + cbn [srd ssrc scon srel sclosed sleak]. split; [exact A2|]. split; [exact EX|]. split; [exact CON|]. split; [exact REL|]. split; [split; [congruence|reflexivity]|].
      split; [|split; [congruence|exact A4]]. intros _. split; [rewrite mfind_mdel by apply I0; rewrite Z.eqb_refl; reflexivity|].
      exists o. split; [reflexivity|]. rewrite A5. reflexivity.
Qed.
Lemma removeConnection_inv id s ok s' : inv s -> removeConnection id s = Done ok s' ->
  inv s' /\ srd s' = srd s /\ ssrc s' = ssrc s /\ (ok = true <-> mfind id (scon s) <> None) /\ scon s' = mdel id (scon s) /\
  (forall c, mfind id (scon s) = Some c -> srel s' = srel s ++ [cobj c]).
Proof.
  intros I D. unfold removeConnection in D. destruct (mfind id (scon s)) as [c|] eqn:F.
  - injection D as <- <-. destruct I as [I0 IS IO].
    pose proof (deleteConns_spec [id] s I0) as S0. cbn [deleteConns] in S0. rewrite F in S0. destruct S0 as (A1 & _).
    cbn [srd ssrc scon srel]. split; [|repeat split; congruence].
    constructor; [exact A1|exact IS|]. cbn [scon]. intros i x X. rewrite mfind_mdel in X by apply I0. destruct (i =? id); [discriminate|].
    apply (ok_same s); [reflexivity|]. apply (IO i x X).
  - injection D as <- <-. split; [exact I|]. split; [reflexivity|]. split; [reflexivity|]. split; [split; congruence|]. split; [rewrite mdel_absent by exact F; reflexivity|]. intros c X. discriminate.
Qed.
Lemma addReader_inv max r m s ok s' : inv s -> addReader max r m s = Done ok s' -> inv s' /\ scon s' = scon s /\ srel s' = srel s /\ sleak s' = sleak s.
Proof.
  intros I D. unfold addReader in D. destruct ((max <=? Z.of_nat (length (srd s))) || mmem r (srd s)) eqn:EX; [injection D as <- <-; split; [exact I|repeat split]|].
  apply orb_false_iff in EX. destruct EX as [_ EX].
  assert (FR : mfind r (srd s) = None) by (unfold mmem in EX; destruct (mfind r (srd s)); [discriminate|reflexivity]).
  destruct (readerConfig r m s) as [ok1 s1] eqn:RC. injection D as <- <-.
  assert (H : srd s1 = srd s /\ scon s1 = scon s /\ srel s1 = srel s /\ sleak s1 = sleak s /\ snext s1 = snext s /\ msorted (ssrc s1) /\
    (forall x, mmem x (ssrc s) = true -> mmem x (ssrc s1) = true) /\ (ok1 = true -> mmem r (ssrc s1) = true)).
  { pose proof (i_src s (i_0 s I)) as SS. unfold readerConfig in RC.
    destruct m; injection RC as <- <-; cbn; repeat split; try assumption; try discriminate; try (apply msorted_mset; exact SS);
      try (intros x X; rewrite mmem_mset, X; apply orb_true_r); try (intros _; rewrite mmem_mset, Z.eqb_refl; reflexivity); auto. }
  destruct H as (E1 & E2 & E3 & E4 & E5 & E6 & E7 & E8). cbn [scon srel sleak]. split; [|repeat split; assumption].
  destruct I as [[A B C D E F] IS IO].
  assert (EXS : forall x sx, srd sx = mset r (if ok1 then Some m else None) (srd s) -> exists_ x s -> exists_ x sx).
  { intros x sx EQ (m0 & X). exists m0. rewrite EQ, mfind_mset. destruct (Z.eqb_spec x r); [congruence|exact X]. }
  constructor.
  - constructor; cbn [srd ssrc scon snext]; rewrite ?E1, ?E2, ?E5; try assumption; [apply msorted_mset; exact A| |];
      intros; unfold acct, live; cbn [scon srel sleak]; rewrite ?E2, ?E3, ?E4; [exact D|apply F].
  - intros x (m0 & X). cbn [srd ssrc] in *. rewrite E1, mfind_mset in X. destruct (Z.eqb_spec x r) as [->|].
    + apply E8. destruct ok1; [reflexivity|discriminate].
    + apply E7, IS. exists m0. exact X.
  - cbn [scon]. rewrite E2. intros i c X. destruct (IO i c X) as (B1 & B2 & B3). split; [exact B1|]. split; [|exact B3].
    intros x Y. destruct (B2 x Y) as [C1 C2]. split; [exact C1|]. apply EXS; [cbn [srd]; rewrite E1; reflexivity|exact C2].
Qed.

(** *** Adding *)
Lemma getReader_exists r s m : getReader r s = Some m -> exists_ r s.
Proof. unfold getReader, exists_. destruct (mfind r (srd s)) as [[x|]|]; try discriminate. intros X. exists x. reflexivity. Qed.
Lemma rtspRaw_spec s : forall rs listed l, rtspRaw rs listed s = Some l -> NoDup listed ->
  l = listed ++ rs /\ NoDup l /\ Forall (fun r => exists_ r s) rs.
Proof.
  induction rs as [|r rs IH]; intros listed l H N; cbn [rtspRaw] in H.
  - injection H as <-. rewrite app_nil_r. repeat split; [exact N|constructor].
  - destruct (getReader r s) as [m|] eqn:G; [|discriminate]. apply getReader_exists in G.
    match type of H with (if ?c then _ else _) = _ => destruct c eqn:EC; [discriminate|] end.
    apply orb_false_iff in EC. destruct EC as [EC _]. apply orb_false_iff in EC. destruct EC as [_ EC].
    assert (NI : ~ In r listed) by (intros X; apply existsb_in in X; congruence).
    destruct (IH (listed ++ [r]) l H) as (A & B & C).
    { apply (Permutation_NoDup (Permutation_cons_append listed r)). constructor; assumption. }
    rewrite <- app_assoc in A. split; [exact A|]. split; [exact B|]. constructor; assumption.
Qed.
Definition tsOk (s : sinks) (used : list Z) (a v : Z) : Prop :=
  (a <> -1 -> In a used /\ exists_ a s /\ exists m, getReader a s = Some m /\ isVideo m = false) /\
  (v <> -1 -> In v used /\ exists_ v s /\ exists m, getReader v s = Some m /\ isVideo m = true) /\
  (forall r, In r used -> r <> -1 -> r = a \/ r = v).
Lemma tsOk_conn s used a v o : tsOk s used a v -> okConn s (mkC o used (tsListed a v)).
Proof.
  intros (A & B & C). assert (L : forall r, In r (tsListed a v) <-> r <> -1 /\ (r = a \/ r = v)).
  { intros r. unfold tsListed. rewrite in_app_iff. destruct (Z.eqb_spec a (-1)), (Z.eqb_spec v (-1)); cbn [In]; intuition congruence. }
  split; [|split]; cbn [clisted cused].
  - unfold tsListed. destruct (Z.eqb_spec a (-1)), (Z.eqb_spec v (-1)); cbn [app]; repeat constructor; cbn [In]; try tauto.
    intros [X|[]]. destruct (A ltac:(assumption)) as (_ & _ & m1 & G1 & V1). destruct (B ltac:(assumption)) as (_ & _ & m2 & G2 & V2). subst v. congruence.
  - intros r X. apply L in X. destruct X as [N [->| ->]]; [destruct (A N) as (P & Q & _)|destruct (B N) as (P & Q & _)]; split; assumption.
  - intros r X N. apply L. split; [exact N|]. apply C; assumption.
Qed.
Lemma rtspTs_spec s : forall rs a v used a' v', rtspTs rs a v s = Some (a', v') -> tsOk s used a v ->
  tsOk s (used ++ rs) a' v' /\ Forall (fun r => exists_ r s) rs.
Proof.
  induction rs as [|r rs IH]; intros a v used a' v' H T; cbn [rtspTs] in H.
  - injection H as <- <-. rewrite app_nil_r. split; [exact T|constructor].
  - destruct (getReader r s) as [m|] eqn:G; [|discriminate]. assert (X := getReader_exists _ _ _ G).
    destruct (negb (mmem r (ssrc s)) || existsb (Z.eqb r) (tsListed a v)); [discriminate|].
    destruct T as (A & B & C). replace (used ++ r :: rs) with ((used ++ [r]) ++ rs) by (rewrite <- app_assoc; reflexivity).
    assert (IN : forall x, In x used -> In x (used ++ [r])) by (intros x Y; apply in_or_app; left; exact Y).
    assert (IR : In r (used ++ [r])) by (apply in_or_app; right; left; reflexivity).
    assert (V : forall vid : bool, isVideo m = vid -> (if vid then v else a) = -1 -> tsOk s (used ++ [r]) (if vid then a else r) (if vid then r else v)).
    { intros [|] E EQ; (split; [|split]).
      - intros N. destruct (A N) as (P & Q). split; [apply IN, P|exact Q].
      - intros N. split; [exact IR|]. split; [exact X|]. exists m. split; assumption.
      - intros x Y N. apply in_app_or in Y. destruct Y as [Y|[->|[]]]; [|right; reflexivity]. destruct (C x Y N) as [->| ->]; [left; reflexivity|congruence].
      - intros N. split; [exact IR|]. split; [exact X|]. exists m. split; assumption.
      - intros N. destruct (B N) as (P & Q). split; [apply IN, P|exact Q].
      - intros x Y N. apply in_app_or in Y. destruct Y as [Y|[->|[]]]; [|left; reflexivity]. destruct (C x Y N) as [->| ->]; [congruence|right; reflexivity]. }
    assert (R : (exists vid : bool, isVideo m = vid /\ (if vid then v else a) = -1 /\ rtspTs rs (if vid then a else r) (if vid then r else v) s = Some (a', v'))).
    { destruct m; try discriminate; match type of H with (if ?c then _ else _) = _ => destruct c eqn:EC; [|discriminate] end; apply Z.eqb_eq in EC;
        first [exists true; repeat split; assumption|exists false; repeat split; assumption]. }
    destruct R as (vid & E & EQ & H'). destruct (IH _ _ (used ++ [r]) _ _ H' (V vid E EQ)) as [P Q]. split; [exact P|]. constructor; assumption.
Qed.
Lemma tsLoop_spec s : forall rs suc hv ha a v used suc' a' v' used', tsLoop rs suc hv ha a v used s = (suc', a', v', used') ->
  tsOk s used a v -> tsOk s used' a' v' /\ incl used' (used ++ rs).
Proof.
  induction rs as [|r rs IH]; intros suc hv ha a v used suc' a' v' used' H T; cbn [tsLoop] in H.
  - injection H as <- <- <- <-. split; [exact T|]. rewrite app_nil_r. apply incl_refl.
  - assert (SK : forall su h1 h2, tsLoop rs su h1 h2 a v used s = (suc', a', v', used') -> tsOk s used' a' v' /\ incl used' (used ++ r :: rs)).
    { intros su h1 h2 H2. destruct (IH _ _ _ _ _ _ _ _ _ _ H2 T) as [P Q]. split; [exact P|]. intros x X. apply Q in X. apply in_app_or in X. apply in_or_app. destruct X; [left; assumption|right; right; assumption]. }
    destruct (getReader r s) as [m|] eqn:G; [|apply (SK _ _ _ H)]. destruct (negb (mmem r (ssrc s))); [apply (SK _ _ _ H)|].
    assert (X := getReader_exists _ _ _ G). destruct T as (A & B & C).
    assert (IN : forall x, In x used -> In x (used ++ [r])) by (intros x Y; apply in_or_app; left; exact Y).
    assert (IR : In r (used ++ [r])) by (apply in_or_app; right; left; reflexivity).
    assert (V : forall vid : bool, isVideo m = vid -> (if vid then v else a) = -1 -> tsOk s (used ++ [r]) (if vid then a else r) (if vid then r else v)).
    { intros [|] E EQ; (split; [|split]).
      - intros N. destruct (A N) as (P & Q). split; [apply IN, P|exact Q].
      - intros N. split; [exact IR|]. split; [exact X|]. exists m. split; assumption.
      - intros x Y N. apply in_app_or in Y. destruct Y as [Y|[->|[]]]; [|right; reflexivity]. destruct (C x Y N) as [->| ->]; [left; reflexivity|congruence].
      - intros N. split; [exact IR|]. split; [exact X|]. exists m. split; assumption.
      - intros N. destruct (B N) as (P & Q). split; [apply IN, P|exact Q].
      - intros x Y N. apply in_app_or in Y. destruct Y as [Y|[->|[]]]; [|left; reflexivity]. destruct (C x Y N) as [->| ->]; [congruence|right; reflexivity]. }
    assert (FIN : forall vid : bool, isVideo m = vid -> (if vid then v else a) = -1 -> forall su h1 h2, tsLoop rs su h1 h2 (if vid then a else r) (if vid then r else v) (used ++ [r]) s = (suc', a', v', used') -> tsOk s used' a' v' /\ incl used' (used ++ r :: rs)).
    { intros vid E EQ su h1 h2 H2. destruct (IH _ _ _ _ _ _ _ _ _ _ H2 (V vid E EQ)) as [P Q]. split; [exact P|]. rewrite <- app_assoc in Q. exact Q. }
    destruct (isVideo m && negb hv) eqn:E1.
    + apply andb_prop in E1. destruct E1 as [E1 _]. match type of H with (if ?c then _ else _) = _ => destruct c eqn:EC end; [|apply (SK _ _ _ H)].
      apply andb_prop in EC. destruct EC as [_ EC]. apply Z.eqb_eq in EC. apply (FIN true E1 EC _ _ _ H).
    + destruct (isAudio m && negb ha) eqn:E2; [|apply (SK _ _ _ H)]. apply andb_prop in E2. destruct E2 as [E2 _].
      match type of H with (if ?c then _ else _) = _ => destruct c eqn:EC end; [|apply (SK _ _ _ H)].
      apply andb_prop in EC. destruct EC as [_ EC]. apply Z.eqb_eq in EC.
      assert (NV : isVideo m = false) by (destruct m; try discriminate; reflexivity). apply (FIN false NV EC _ _ _ H).
Qed.
Lemma tsOk_none s : tsOk s [] (-1) (-1).
Proof. split; [congruence|]. split; [congruence|]. intros r []. Qed.

(** What adding a connection does: nothing, one object destroyed, one forgotten, or one kept. *)
Inductive added (s : sinks) (id : Z) (rs : list Z) : bool -> sinks -> Prop :=
| ad_same : added s id rs false s
| ad_disc : mfind id (scon s) = None -> added s id rs false (discard s)
| ad_leak : mfind id (scon s) = None -> added s id rs false (forget s)
| ad_keep used listed : mfind id (scon s) = None -> okConn s (mkC (snext s) used listed) -> incl used rs -> (forall r, In r rs -> exists_ r s) ->
    added s id rs true (keep id used listed s).
Lemma added_inv s id rs ok s' : inv s -> added s id rs ok s' -> inv s'.
Proof. intros I [| | |used listed N O _ _]; [exact I|apply inv_discard, I|apply inv_forget, I|apply inv_keep; assumption]. Qed.
Lemma mmem_none (A : Type) k (m : zmap A) : mmem k m = false -> mfind k m = None.
Proof. unfold mmem. destruct (mfind k m); [discriminate|reflexivity]. Qed.
Lemma addRTSP_added server ok rs id f s b s' : addRTSP server ok rs id f s = Done b s' -> added s id rs b s' /\ sleak s' = sleak s /\
  (b = true -> exists l, scon s' = mset id (mkC (snext s) rs l) (scon s)).
Proof.
  unfold addRTSP. destruct (negb server); [intros D; injection D as <- <-; split; [constructor|split; [reflexivity|discriminate]]|].
  destruct rs as [|r0 rs0]; [intros D; injection D as <- <-; split; [constructor|split; [reflexivity|discriminate]]|]. set (rs := r0 :: rs0). 
  destruct (mmem id (scon s)) eqn:E; [intros D; injection D as <- <-; split; [constructor|split; [reflexivity|discriminate]]|]. apply mmem_none in E.
  match goal with |- match ?x with _ => _ end = _ -> _ => destruct x as [listed|] eqn:L end.
  2:{ intros D. injection D as <- <-. split; [constructor; exact E|split; [reflexivity|discriminate]]. }
  destruct ok; intros D; injection D as <- <-; [|split; [constructor; exact E|split; [reflexivity|discriminate]]].
  split; [|split; [reflexivity|intros _; exists listed; reflexivity]].
  assert (RAW : forall rs l, rtspRaw rs [] s = Some l -> okConn s (mkC (snext s) rs l) /\ forall r, In r rs -> exists_ r s).
  { intros rs1 l H. destruct (rtspRaw_spec s rs1 [] l H (NoDup_nil _)) as (-> & N & F). rewrite Forall_forall in F. cbn [app] in *.
    split; [|exact F]. split; [exact N|]. split; cbn [clisted cused]; auto. }
  destruct f.
  - destruct (RAW _ _ L) as [O X]. constructor; try assumption. apply incl_refl.
  - destruct (RAW _ _ L) as [O X]. constructor; try assumption. apply incl_refl.
  - destruct (rtspTs rs (-1) (-1) s) as [[a v]|] eqn:T; [|discriminate]. injection L as <-.
    destruct (rtspTs_spec s rs (-1) (-1) [] a v T (tsOk_none s)) as [O F]. rewrite Forall_forall in F. cbn [app] in O.
    constructor; [exact E|apply tsOk_conn, O|apply incl_refl|exact F].
Qed.
Lemma addSingle_added ok r id sup s b s' : mfind id (scon s) = None -> exists_ r s -> addSingle ok r id sup s = Done b s' -> added s id [r] b s' /\ sleak s' = sleak s /\
  (b = true -> scon s' = mset id (mkC (snext s) [r] [r]) (scon s)).
Proof.
  intros N X. unfold addSingle. destruct (getReader r s) as [m|]; [|intros D; injection D as <- <-; split; [constructor|split; [reflexivity|discriminate]]].
  assert (K : (if negb (mmem r (ssrc s)) then Crash else if sup m && ok then Done true (keep id [r] [r] s) else Done false (discard s)) = Done b s' ->
     added s id [r] b s' /\ sleak s' = sleak s /\ (b = true -> scon s' = mset id (mkC (snext s) [r] [r]) (scon s))).
  { destruct (negb (mmem r (ssrc s))); [discriminate|]. destruct (sup m && ok); intros D; injection D as <- <-.
    - split; [|split; [reflexivity|reflexivity]]. constructor; [exact N| |apply incl_refl|intros x [->|[]]; exact X]. split; [repeat constructor; intros []|]. cbn [clisted cused]. split; [|auto].
      intros x [->|[]]. split; [left; reflexivity|exact X].
    - split; [constructor; exact N|split; [reflexivity|discriminate]]. }
  destruct m; try exact K. intros D. injection D as <- <-. split; [constructor|split; [reflexivity|discriminate]].
Qed.
Lemma addRTP_added ok rs id f s b s' : addRTP ok rs id f s = Done b s' -> added s id rs b s' /\ (f <> MpegTs -> sleak s' = sleak s).
Proof.
  unfold addRTP. destruct (mmem id (scon s)) eqn:E; [intros D; injection D as <- <-; split; [constructor|reflexivity]|]. apply mmem_none in E.
  match goal with |- context [negb ?x] => destruct x eqn:FA end; cbn [negb]; [|intros D; injection D as <- <-; split; [constructor|reflexivity]].
  assert (X : forall r, In r rs -> exists_ r s).
  { intros r R. rewrite forallb_forall in FA. specialize (FA r R). destruct (getReader r s) eqn:G; [|discriminate]. apply (getReader_exists _ _ _ G). }
  destruct f.
  - destruct rs as [|r [|? ?]]; try (intros D; injection D as <- <-; split; [constructor|reflexivity]). intros D.
    destruct (addSingle_added _ _ _ _ _ _ _ E (X r (or_introl eq_refl)) D) as (A & B & _). split; [exact A|intros _; exact B].
  - destruct rs as [|r [|? ?]]; try (intros D; injection D as <- <-; split; [constructor|reflexivity]). intros D.
    destruct (addSingle_added _ _ _ _ _ _ _ E (X r (or_introl eq_refl)) D) as (A & B & _). split; [exact A|intros _; exact B].
  - assert (K : (let '(success, a, v, used) := tsLoop rs false false false (-1) (-1) [] s in
      if negb success then Done false (forget s) else if ok then Done true (keep id used (tsListed a v) s) else Done false (discard s)) = Done b s' -> added s id rs b s' /\ (MpegTs <> MpegTs -> sleak s' = sleak s)).
    { destruct (tsLoop rs false false false (-1) (-1) [] s) as [[[suc a] v] used] eqn:T.
      destruct (tsLoop_spec s _ _ _ _ _ _ _ _ _ _ _ T (tsOk_none s)) as [O IC]. cbn [app] in IC.
      destruct (negb suc); [intros D; injection D as <- <-; split; [constructor; exact E|congruence]|].
      destruct ok; intros D; injection D as <- <-; (split; [|congruence]); [constructor; try assumption; apply tsOk_conn, O|constructor; exact E]. }
    destruct rs as [|r1 [|r2 [|r3 rs]]]; try exact K; intros D; injection D as <- <-; (split; [constructor|congruence]).
Qed.
Theorem step_inv server max o s b s' : inv s -> sstep server max o s = Done b s' -> inv s'.
Proof.
  intros I D. destruct o; cbn [sstep] in D.
  - apply (addReader_inv _ _ _ _ _ _ I D).
  - destruct (mfind r (srd s)) as [x|] eqn:F.
    + apply (deleteReader_spec r s b s' I D). congruence.
    + unfold deleteReader in D. rewrite F in D. injection D as <- <-. exact I.
  - apply addRTSP_added in D. apply (added_inv s id rs b); [exact I|apply D].
  - apply addRTP_added in D. apply (added_inv s id rs b); [exact I|apply D].
  - apply (removeConnection_inv _ _ _ _ I D).
Qed.
Lemma inv_new : inv newSinks.
Proof.
  constructor; [constructor; cbn; try exact Logic.I; try lia; try constructor|intros r (m & X); discriminate|intros id c X; discriminate].
Qed.
Theorem run_inv server max : forall os s s', inv s -> srun server max os s = Some s' -> inv s'.
Proof.
  induction os as [|o os IH]; intros s s' I R; cbn [srun] in R; [injection R as <-; exact I|].
  destruct (sstep server max o s) as [b s1|] eqn:E; [|discriminate]. apply (IH s1 s'); [apply (step_inv _ _ _ _ _ _ I E)|exact R].
Qed.
