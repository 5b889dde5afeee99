(* C53: the register of sessions.  C54: keep-alive requests. *)
From Coq Require Import ZArith List Bool Lia String.
From Verif Require Import ZMap JsonModel CtlProofs SessModel SessSpec SessProofs.
Import ListNotations.
Local Open Scope list_scope.
Local Open Scope Z_scope.

(* C53.  At every moment the sessions have different names, and each port in
   use belongs to a session that is registered. *)
Theorem C53_register r : reachable r ->
  NoDup (map fst (sessions r)) /\
  (forall p, InUse r p -> exists id s, SessionOf r id s /\ In p (sports s)).
Proof. intros H. apply reachable_inv in H. destruct H. split; assumption. Qed.

(* C53.  A request for a name that is taken is refused and changes nothing. *)
Theorem C53_taken_name r id o : Registered r id -> creates o id -> step o r = Done r false.
Proof.
  intros R C. destruct (lookup id (sessions r)) as [s|] eqn:L.
  - destruct o; cbn in C; try contradiction; subst; cbn [step]; unfold addStreams, addUrl; rewrite L; reflexivity.
  - apply lookup_none in L. contradiction.
Qed.

(* C53.  An accepted description takes exactly its ports; none of them was in
   use, and all other ports and sessions are as before. *)
Theorem C53_accepted r id ok ps r' : reachable r ->
  step (AddStreams id true ok ps) r = Done r' true ->
  ~ Registered r id /\ NoDup ps /\
  (forall p, In p ps -> ~ InUse r p /\ InUse r' p) /\
  (forall p, ~ In p ps -> mfind p (sinks r') = mfind p (sinks r)) /\
  (forall i s, SessionOf r' i s <-> (i = id /\ s = mkSess NoClient true ps) \/ SessionOf r i s).
Proof.
  intros R H. apply reachable_inv in R. destruct R as [I1 I2 I3 I4].
  cbn [step] in H. unfold addStreams in H. destruct (lookup id (sessions r)) eqn:L; [discriminate|].
  cbn [store sinks sessions] in H. destruct (initiate ok ps (sinks r)) as [[k b]|] eqn:E; [|discriminate].
  inversion H; subst. apply initiate_spec in E; [|exact I2]. destruct E as (E1 & E2 & E3 & E4 & E5).
  destruct (E4 eq_refl) as [N A]. apply lookup_none in L.
  split; [exact L|]. split; [exact N|]. split; [|split].
  - intros p P. destruct (A p P) as [A1 A2]. unfold InUse. cbn [sinks]. split; congruence.
  - intros p P. cbn [sinks]. destruct (mfind p (sinks r)) as [e|] eqn:F; [apply E3; exact F|].
    destruct (mfind p k) eqn:G; [|reflexivity]. destruct (E2 p); [congruence|congruence|contradiction].
  - intros i s. unfold SessionOf. cbn [sessions]. split.
    + intros [X|X]; [left; inversion X; auto|]. apply without_in in X. right. tauto.
    + intros [[-> ->]|X]; [left; reflexivity|]. right. apply without_in. split; [exact X|]. cbn [fst].
      intros ->. apply L. exact (reg_in r id s X).
Qed.

(* C53.  The answer of an RTSP server is accepted exactly for a session that
   awaits it, with ports that are all free: the session then has exactly these
   ports, and all other ports and sessions are as before. Otherwise nothing
   changes. *)
Theorem C53_described r id ps r' b : reachable r -> step (Describe id ps) r = Done r' b ->
  (b = true <-> (exists s, SessionOf r id s /\ client s = Live /\ described s = false) /\ forall p, In p ps -> ~ InUse r p) /\
  (b = true -> (forall p, In p ps -> InUse r' p /\ Quiet r' p) /\ (forall p, ~ In p ps -> mfind p (sinks r') = mfind p (sinks r)) /\
     (forall i s, SessionOf r' i s <-> (i = id /\ s = mkSess Live true ps) \/ (i <> id /\ SessionOf r i s))) /\
  (b = false -> r' = r).
Proof.
  intros R H. apply reachable_inv in R. destruct R as [I1 I2 I3 I4]. cbn [step] in H. unfold describe in H.
  assert (NO : (forall s, SessionOf r id s -> client s = Live -> described s = true) -> Done r false = Done r' b ->
    (b = true <-> (exists s, SessionOf r id s /\ client s = Live /\ described s = false) /\ forall p, In p ps -> ~ InUse r p) /\
    (b = true -> (forall p, In p ps -> InUse r' p /\ Quiet r' p) /\ (forall p, ~ In p ps -> mfind p (sinks r') = mfind p (sinks r)) /\
       (forall i s, SessionOf r' i s <-> (i = id /\ s = mkSess Live true ps) \/ (i <> id /\ SessionOf r i s))) /\
    (b = false -> r' = r)).
  { intros N E. inversion E; subst. split; [split; [discriminate|]|split; [discriminate|reflexivity]].
    intros [[s [S1 [S2 S3]]] _]. rewrite (N s S1 S2) in S3. discriminate. }
  destruct (lookup id (sessions r)) as [s|] eqn:L.
  2:{ apply NO; [|exact H]. intros s S _. apply in_lookup in S; [|exact I1]. congruence. }
  assert (U : forall s', SessionOf r id s' -> s' = s) by (intros s' S; apply in_lookup in S; [|exact I1]; congruence).
  destruct (client s) eqn:C; try (apply NO; [|exact H]; intros s' S1 S2; rewrite (U s' S1) in S2; congruence).
  destruct (described s) eqn:D; [apply NO; [|exact H]; intros s' S1 _; rewrite (U s' S1); exact D|]. clear NO.
  destruct (forallb (fun p => negb (mmem p (sinks r))) ps) eqn:F; inversion H; subst; clear H.
  - rewrite forallb_forall in F. destruct (setup_spec ps (sinks r) I2) as (E1 & E2 & E3 & E4).
    split; [split; [intros _|reflexivity]|split; [intros _|discriminate]].
    + split; [exists s; split; [apply lookup_in; exact L|split; assumption]|]. intros p P Q. specialize (F p P). unfold mmem in F. unfold InUse in Q. destruct (mfind p (sinks r)); [discriminate|congruence].
    + split; [|split].
      * intros p P. unfold InUse, Quiet. cbn [store sinks]. rewrite (E4 p P). split; [discriminate|]. intros e X. inversion X; subst. split; reflexivity.
      * intros p P. cbn [store sinks]. apply E3. exact P.
      * intros i x. unfold SessionOf. cbn [store sessions]. split.
        -- intros [X|X]; [left; inversion X; auto|]. apply without_in in X. right. cbn [fst] in X. tauto.
        -- intros [[-> ->]|[N X]]; [left; reflexivity|]. right. apply without_in. cbn [fst]. tauto.
  - split; [split; [discriminate|]|split; [discriminate|reflexivity]]. intros [_ N]. exfalso.
    assert (T : forallb (fun p => negb (mmem p (sinks r'))) ps = true); [|congruence].
    apply forallb_forall. intros p P. specialize (N p P). unfold InUse, mmem in *. destruct (mfind p (sinks r')); [exfalso; apply N; discriminate|reflexivity].
Qed.

(* C53.  Removing an RTSP session works exactly when it is known to be
   described, its client is alive and none of its ports is read or has been
   closed; it then frees exactly its ports and forgets exactly that session. *)
Theorem C53_remove_partial r id s : reachable r -> SessionOf r id s -> client s <> NoClient ->
  ((exists r', step (Remove id) r = Done r' true) <->
   described s = true /\ client s = Live /\ forall p, In p (sports s) -> Quiet r p) /\
  forall r', step (Remove id) r = Done r' true ->
  (forall i s', SessionOf r' i s' <-> SessionOf r i s' /\ i <> id) /\
  (forall p, In p (sports s) -> ~ InUse r' p) /\
  (forall p, ~ In p (sports s) -> mfind p (sinks r') = mfind p (sinks r)).
Proof.
  intros R S NC. apply reachable_inv in R. destruct R as [I1 I2 I3 I4].
  pose proof (in_lookup _ _ _ I1 S) as L. cbn [step]. unfold removeSession. rewrite L. split; [split|].
  - intros [r' H]. destruct (described s) eqn:D; [|discriminate].
    destruct (closeAll (sports s) (sinks r)) as [k|] eqn:E; [|discriminate].
    apply closeAll_spec in E; [|exact I2]. destruct E as (E1 & E2 & E3).
    split; [reflexivity|]. split; [destruct (client s); congruence|].
    intros p P e F. exact (E3 p e P F).
  - intros (D & C & Q). rewrite D, C. destruct (closeAll_ok (sports s) (sinks r)) as [k K]; [exact I2|intros p e P F; exact (Q p P e F)|].
    rewrite K. eexists; reflexivity.
  - intros r' H. destruct (described s) eqn:D; [|discriminate].
    destruct (closeAll (sports s) (sinks r)) as [k|] eqn:E; [|discriminate].
    apply closeAll_spec in E; [|exact I2]. destruct E as (E1 & E2 & E3).
    assert (r' = mkReg (without id (sessions r)) k).
    { destruct (client s); [destruct (sports s)| |]; inversion H; reflexivity. }
    subst r'. split; [|split].
    + intros i s'. unfold SessionOf. cbn [sessions]. rewrite without_in. reflexivity.
    + intros p P. unfold InUse. cbn [sinks]. rewrite E2. destruct in_dec; [congruence|contradiction].
    + intros p P. cbn [sinks]. rewrite E2. destruct in_dec; [contradiction|reflexivity].
Qed.

(* C53.  Removing an unknown name is refused and changes nothing. *)
Theorem C53_remove_unknown r id : ~ Registered r id -> step (Remove id) r = Done r false.
Proof. intros N. apply lookup_none in N. cbn [step]. unfold removeSession. rewrite N. reflexivity. Qed.

(* C53 is false: every session made from a description with at least one
   stream crashes the receiver when it is removed, whatever happened before. *)
Theorem C53_remove_streams_refuted r id s : reachable r -> SessionOf r id s ->
  client s = NoClient -> sports s <> [] -> step (Remove id) r = Crash.
Proof.
  intros R S C P. apply reachable_inv in R. destruct R as [I1 I2 I3 I4].
  cbn [step]. unfold removeSession. rewrite (in_lookup _ _ _ I1 S). rewrite C.
  destruct (described s); [|reflexivity]. destruct (closeAll _ _); [|reflexivity].
  destruct (sports s); [congruence|reflexivity].
Qed.

(* C53 is false: a description refused because one of its ports is taken
   leaves its session behind.  The name cannot be used again, and removing
   it crashes the receiver. *)
Theorem C53_refused_refuted r id parses ok ps r' : reachable r -> ~ Registered r id ->
  step (AddStreams id parses ok ps) r = Done r' false ->
  (exists p, In p ps /\ (InUse r p \/ ~ NoDup ps)) /\
  SessionOf r' id (mkSess NoClient true ps) /\
  (forall o, creates o id -> step o r' = Done r' false) /\
  step (Remove id) r' = Crash.
Proof.
  intros R N H. pose proof (reachable_step r _ r' false R H) as R'.
  apply reachable_inv in R. destruct R as [I1 I2 I3 I4].
  cbn [step] in H. unfold addStreams in H. apply lookup_none in N. rewrite N in H.
  destruct parses; [|discriminate].
  cbn [store sinks sessions] in H. destruct (initiate ok ps (sinks r)) as [[k b]|] eqn:E; [|discriminate].
  inversion H; subst. apply initiate_spec in E; [|exact I2]. destruct E as (E1 & E2 & E3 & E4 & E5).
  destruct (E5 eq_refl) as (p & P1 & P2).
  match goal with |- _ /\ SessionOf ?x _ _ /\ _ => set (r' := x) in * end.
  assert (S : SessionOf r' id (mkSess NoClient true ps)) by (left; reflexivity).
  split; [exists p; split; [exact P1|exact P2]|]. split; [exact S|]. split.
  - intros o C. apply (C53_taken_name r' id o); [exact (reg_in r' id _ S)|exact C].
  - apply (C53_remove_streams_refuted r' id (mkSess NoClient true ps)); [exact R'|exact S|reflexivity|].
    cbn [sports]. intros ->. destruct P1.
Qed.

(* C53 is false: a session asked for by URL crashes the receiver when it is
   removed before the server has answered, or after its stream was shut down
   (the server refused it, its timer ran out). *)
Theorem C53_remove_early_refuted r id r' : reachable r -> step (AddUrl id true) r = Done r' true ->
  step (Remove id) r' = Crash.
Proof.
  intros R H. pose proof (reachable_step r _ r' true R H) as R'. apply reachable_inv in R'.
  cbn [step] in H. unfold addUrl in H. destruct (lookup id (sessions r)); [discriminate|]. inversion H; subst.
  cbn [step]. unfold removeSession. cbn [store sessions lookup]. rewrite streq_refl. reflexivity.
Qed.
Theorem C53_remove_shut_refuted r id r' : reachable r -> step (Shutdown id) r = Done r' true ->
  Registered r' id /\ step (Remove id) r' = Crash.
Proof.
  intros R H. cbn [step] in H. unfold shutdown in H. destruct (lookup id (sessions r)) as [s|] eqn:L; [|discriminate].
  destruct (client s); inversion H; subst. split; [left; reflexivity|].
  cbn [step]. unfold removeSession. cbn [store sessions lookup]. rewrite streq_refl. cbn [described sports client sinks].
  destruct (described s); [|reflexivity]. destruct (closeAll _ _); [|reflexivity]. destruct (sports s); reflexivity.
Qed.
(* A description that live555 does not accept crashes the receiver too. *)
Theorem C53_unparsed_refuted r id ok ps : ~ Registered r id -> step (AddStreams id false ok ps) r = Crash.
Proof. intros N. apply lookup_none in N. cbn [step]. unfold addStreams. rewrite N. reflexivity. Qed.

(* Cases. *)
Definition idA : str := lit "a".
Definition idB : str := lit "b".
Definition urlA : list op := [AddUrl idA true; Describe idA [5004; 5006]; Connect 5004; Disconnect 5004].
Example C53_described_ex : exists r r', run [AddUrl idA true] reg0 = Some r /\ step (Describe idA [5004; 5006]) r = Done r' true /\ step (Describe idA [5008]) r' = Done r' false.
Proof. eexists. eexists. repeat split; reflexivity. Qed.
Example C53_case_remove :
  match run urlA reg0 with
  | Some r => match step (Remove idA) r with Done r' true => sinks r' = [] /\ sessions r' = [] | _ => False end
  | None => False
  end.
Proof. vm_compute. auto. Qed.
Example C53_case_refused :
  match run [AddStreams idA true (fun _ => true) [5004]] reg0 with
  | Some r => ~ Registered r idB /\
      match step (AddStreams idB true (fun _ => true) [5006; 5004]) r with
      | Done r' false => mfind 5006 (sinks r') <> None
      | _ => False
      end
  | None => False
  end.
Proof. vm_compute. split; [|discriminate]. intros [H|[]]. discriminate. Qed.
Example C53_case_shut :
  exists r r', run (urlA ++ [AddStreams idB true (fun _ => true) [5010]]) reg0 = Some r /\ step (Shutdown idA) r = Done r' true.
Proof. eexists. eexists. split; vm_compute; reflexivity. Qed.

Lemma schedule_in_time t first next late :
  0 <= first -> 0 < next -> first <= next -> next <= t * 1000000 ->
  (forall n, 0 <= late n <= t * 1000000 - next) ->
  InTime t (heardAt first next late).
Proof.
  intros F N FN NT L now P. set (slackT := t * 1000000 - next) in *.
  destruct (Z_lt_le_dec (now - slackT) first) as [C|C].
  - exists 0. split; [left; reflexivity|]. unfold slackT in C. lia.
  - set (n := (now - slackT - first) / next).
    assert (Q : n * next <= now - slackT - first < n * next + next).
    { pose proof (Z.div_mod (now - slackT - first) next) as E. pose proof (Z.mod_pos_bound (now - slackT - first) next N) as B.
      fold n in E. rewrite (Z.mul_comm n next). lia. }
    assert (0 <= n) by (apply Z.div_pos; lia).
    exists (first + n * next + late n). split; [right; exists n; auto|].
    specialize (L n). unfold slackT in *. lia.
Qed.

(* C54.  Whatever timeout from 2 to 4299 seconds the server announces, it
   hears from the receiver before the timeout runs out, for ever, although
   every request may be late by the slack; and the requests are at least a
   second apart. *)
Theorem C54_in_time_partial t late : 2 <= t <= 4299 -> (forall n, 0 <= late n <= slack t) ->
  InTime t (heardAt (firstKeepAlive t) (nextKeepAlive t) late) /\ 1000000 <= nextKeepAlive t.
Proof.
  intros T L. unfold slack in L. unfold firstKeepAlive, nextKeepAlive.
  destruct (Z.eqb_spec t 0) as [E|_]; [lia|].
  assert (D : delayFor t = (if t <=? 5 then 1 else t - 5) * 1000000).
  { unfold delayFor, U32. apply Z.mod_small. destruct (Z.leb_spec t 5); lia. }
  rewrite D. split.
  - apply schedule_in_time; try (destruct (Z.leb_spec t 5); lia).
    intros n. specialize (L n). destruct (Z.leb_spec t 5); lia.
  - destruct (Z.leb_spec t 5); lia.
Qed.
(* C54.  A server that announces no timeout has one of 60 seconds. *)
Theorem C54_default late : (forall n, 0 <= late n <= slack 60) ->
  InTime 60 (heardAt (firstKeepAlive 0) (nextKeepAlive 0) late).
Proof.
  intros L now P. change (slack 60) with 5000000 in L. change (firstKeepAlive 0) with 55000000. change (nextKeepAlive 0) with 25000000.
  destruct (Z_lt_le_dec now 60000000) as [C|C].
  - exists 0. split; [left; reflexivity|]. lia.
  - set (n := (now - 60000000) / 25000000).
    pose proof (Z.div_mod (now - 60000000) 25000000) as E. pose proof (Z.mod_pos_bound (now - 60000000) 25000000) as B. fold n in E.
    assert (0 <= n) by (apply Z.div_pos; lia).
    exists (55000000 + n * 25000000 + late n). split; [right; exists n; auto|]. specialize (L n). lia.
Qed.
(* C54 is false for a timeout of one second: a request late by a microsecond
   is too late. *)
Theorem C54_one_second_refuted : ~ InTime 1 (heardAt (firstKeepAlive 1) (nextKeepAlive 1) (fun _ => 1)).
Proof.
  intros H. destruct (H 1000000) as (h & [->|(n & N & ->)] & B); [lia|lia|].
  change (firstKeepAlive 1) with 1000000 in B. change (nextKeepAlive 1) with 1000000 in B. lia.
Qed.
(* C54 is false for long timeouts: the delay wraps around.  It is always
   less than 72 minutes, a timeout of 4300 seconds makes the receiver send
   thirty requests a second, and some timeouts leave no pause at all. *)
Theorem C54_long_refuted :
  (forall t, 4300 <= t < U32 -> nextKeepAlive t < (t - 5) * 1000000 /\ nextKeepAlive t < 4294967296) /\
  nextKeepAlive 4300 = 32704 /\
  (forall t, 5 < t < U32 -> (nextKeepAlive t = 0 <-> (67108864 | t - 5))).
Proof.
  split; [|split; [reflexivity|]].
  - intros t T. unfold U32 in T. unfold nextKeepAlive. destruct (Z.eqb_spec t 0); [lia|]. unfold delayFor, U32.
    destruct (Z.leb_spec t 5); [lia|]. pose proof (Z.mod_pos_bound ((t - 5) * 1000000) 4294967296). lia.
  - intros t T. unfold nextKeepAlive. destruct (Z.eqb_spec t 0); [lia|]. unfold delayFor, U32.
    destruct (Z.leb_spec t 5); [lia|]. rewrite Z.mod_divide by lia. split; intros [k K].
    + assert (G : (67108864 | 15625 * (t - 5))) by (exists k; lia).
      apply Z.gauss in G; [exact G|]. reflexivity.
    + exists (15625 * k). lia.
Qed.
Example C54_case : InTime 60 (heardAt (firstKeepAlive 60) (nextKeepAlive 60) (fun n => n mod 5000000)).
Proof. apply C54_in_time_partial; [lia|]. intros n. change (slack 60) with 5000000. pose proof (Z.mod_pos_bound n 5000000). lia. Qed.

Print Assumptions C53_register.
Print Assumptions C53_taken_name.
Print Assumptions C53_accepted.
Print Assumptions C53_remove_partial.
Print Assumptions C53_remove_unknown.
Print Assumptions C53_remove_streams_refuted.
Print Assumptions C53_refused_refuted.
Print Assumptions C53_remove_early_refuted.
Print Assumptions C53_remove_shut_refuted.
Print Assumptions C53_unparsed_refuted.
Print Assumptions C54_in_time_partial.
Print Assumptions C54_default.
Print Assumptions C54_one_second_refuted.
Print Assumptions C54_long_refuted.
Print Assumptions C53_described.
