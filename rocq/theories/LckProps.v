(** Property C99 (threads do not block each other for ever). *)
From Verif Require Import Base LckModel LckSpec LckProofs.

(** Whatever the control thread is asked, carefully, and whatever any number of workers do, everything that was begun
    can be finished, without anything new being begun. *)
Theorem C99_all_can_finish_partial kind n s : happens kind n (careful kind) s ->
  exists s', goesOn kind s s' /\ forall t, prog s' t = [].
Proof. intros H. exact (finish kind n _ s (le_n _) (happens_inv kind n s H)). Qed.
Print Assumptions C99_all_can_finish_partial.

(** So there are no threads of which each waits for another one of them, or for itself. *)
Theorem C99_no_deadlock_partial kind n s ts : happens kind n (careful kind) s -> ~ deadlock s ts.
Proof.
  intros H D. destruct (C99_all_can_finish_partial kind n s H) as (s' & G & F). pose proof (deadlock_stays kind s s' ts G D) as D'.
  destruct ts as [|t r]; [destruct D as [N _]; congruence|]. exact (deadlock_busy s' (t :: r) t D' (or_introl eq_refl) (F t)).
Qed.
Print Assumptions C99_no_deadlock_partial.

(** As long as somebody has something to do, somebody can go on. *)
Theorem C99_somebody_goes_on_partial kind n s t : happens kind n (careful kind) s -> prog s t <> [] -> exists u s', exec kind u s = Some s'.
Proof. intros H N. destruct (happens_inv kind n s H) as (A & B & hs & O & W). exact (progress kind s hs O W t N). Qed.
Print Assumptions C99_somebody_goes_on_partial.

(** Threads in a deadlock stay there, whatever the others do. *)
Theorem C99_deadlock_stays kind s s' ts : goesOn kind s s' -> deadlock s ts -> deadlock s' ts /\ forall t, In t ts -> prog s' t <> [].
Proof. intros G D. pose proof (deadlock_stays kind s s' ts G D) as D'. split; [exact D'|]. intros t I. exact (deadlock_busy s' ts t D' I). Qed.
Print Assumptions C99_deadlock_stays.

(** *** What is not so *)
(** A filter that is connected to itself: the control thread never comes back. *)
Lemma self_inv kind f r s s' : goesOn kind s s' ->
  ((exists k, prog s 0%nat = skipn k [Acq (Fil f); Rel (Fil f); Acq (Fil f); Rel (Fil f)] ++ Acq (Fil f) :: Acq (Fil f) :: r) \/ deadlock s [0%nat]) ->
  prog s' 0%nat <> [].
Proof.
  induction 1 as [s|s t s1 s2 E G IH]; intros J.
  - destruct J as [[k J]|J]; [|exact (deadlock_busy s [0%nat] 0%nat J (or_introl eq_refl))]. rewrite J.
    destruct (skipn k _); discriminate.
  - apply IH. destruct J as [[k J]|J]; [|right; eapply deadlock_act; eauto].
    destruct (Nat.eq_dec t 0) as [->|T].
    + unfold exec in E. rewrite J in E.
      assert (W : forall q, prog (setProg 0 q s) 0%nat = q) by reflexivity.
      destruct k as [|[|[|[|k]]]]; cbn [skipn app] in E; cbv zeta in E.
      * destruct (own s (Fil f)); [discriminate|]. injection E as <-. left. exists 1%nat. reflexivity.
      * destruct (own s (Fil f)) as [u|]; [|discriminate]. destruct (u =? 0)%nat; [|discriminate]. injection E as <-. left. exists 2%nat. reflexivity.
      * destruct (own s (Fil f)); [discriminate|]. injection E as <-. left. exists 3%nat. reflexivity.
      * destruct (own s (Fil f)) as [u|]; [|discriminate]. destruct (u =? 0)%nat; [|discriminate]. injection E as <-. left. exists 4%nat. reflexivity.
      * rewrite skipn_nil in E. cbn [app] in E. destruct (own s (Fil f)); [discriminate|]. injection E as <-. right. split; [discriminate|].
        intros t [<-|[]]. exists (Fil f), 0%nat. split; [reflexivity|]. split; [|left; reflexivity].
        unfold setOwn. cbn [own]. destruct (lock_eq (Fil f) (Fil f)); congruence.
    + left. exists k. rewrite <- J. unfold exec in E. destruct (prog s t) as [|a p]; [discriminate|]. cbv zeta in E.
      assert (Q : forall q, prog (setProg t q s) 0%nat = prog s 0%nat) by (intros q; cbn; destruct t; [congruence|reflexivity]).
      destruct a; repeat match type of E with context [match ?x with _ => _ end] => destruct x; try discriminate E end; injection E as <-; apply Q.
Qed.
Theorem C99_connect_to_itself_refuted kind f twice o s s' : prog s 0%nat = [] ->
  goesOn kind (setProg 0 (requestActs (Connects f f twice o)) s) s' -> prog s' 0%nat <> [].
Proof.
  intros _ G. refine (self_inv kind f _ _ s' G _). left. exists 0%nat. reflexivity.
Qed.
Print Assumptions C99_connect_to_itself_refuted.

(** A way to go through a history. *)
Inductive ev := Req (q : request) | Rnd (t : nat) (x : round) | Act (t : nat) (times : nat).
Fixpoint acts kind t k (s : sys) : option sys := match k with O => Some s | S m => match exec kind t s with Some s' => acts kind t m s' | None => None end end.
Definition idle (s : sys) (t : nat) : bool := match prog s t with [] => true | _ => false end.
Fixpoint play kind n (ok : sys -> request -> bool) (evs : list ev) (s : sys) : option sys :=
  match evs with
  | [] => Some s
  | Req q :: r => if idle s 0 && ok s q then play kind n ok r (setProg 0 (requestActs q) s) else None
  | Rnd t x :: r => if (1 <=? t)%nat && (t <=? n)%nat && idle s t then play kind n ok r (setProg t (roundActs kind x) s) else None
  | Act t k :: r => match acts kind t k s with Some s' => play kind n ok r s' | None => None end
  end.
Lemma acts_happens kind n allowed t k : forall s s', happens kind n allowed s -> acts kind t k s = Some s' -> happens kind n allowed s'.
Proof.
  induction k as [|k IH]; intros s s' H E; cbn [acts] in E; [congruence|]. destruct (exec kind t s) eqn:X; [|discriminate]. eapply IH; [eapply ha_act; eauto|exact E].
Qed.
Lemma idle_spec s t : idle s t = true -> prog s t = [].
Proof. unfold idle. destruct (prog s t); [reflexivity|discriminate]. Qed.
Lemma play_happens kind n ok (allowed : sys -> request -> Prop) (A : forall s q, ok s q = true -> allowed s q) evs : forall s s', happens kind n allowed s ->
  play kind n ok evs s = Some s' -> happens kind n allowed s'.
Proof.
  induction evs as [|e r IH]; intros s s' H L; cbn [play] in L; [congruence|]. destruct e as [q|t x|t k].
  - destruct (idle s 0) eqn:E1; [|discriminate]. destruct (ok s q) eqn:E2; [|discriminate]. cbn [andb] in L.
    eapply IH; [eapply ha_request; eauto using idle_spec|exact L].
  - destruct (Nat.leb_spec 1 t) as [E1|]; [|discriminate]. destruct (Nat.leb_spec t n) as [E2|]; [|discriminate]. destruct (idle s t) eqn:E3; [|discriminate].
    cbn [andb] in L. eapply IH; [eapply ha_round; eauto using idle_spec|exact L].
  - destruct (acts kind t k s) eqn:E; [|discriminate]. eapply IH; [eapply acts_happens; eauto|exact L].
Qed.
Definition waits (s : sys) (t : nat) (l : lock) (u : nat) : bool :=
  match prog s t, own s l with Acq k :: _, Some v => (if lock_eq k l then true else false) && (v =? u)%nat | _, _ => false end.
Lemma waits_spec s t l u : waits s t l u = true -> needs s t l /\ own s l = Some u.
Proof.
  unfold waits, needs. destruct (prog s t) as [|[] ?]; try discriminate. destruct (own s l); [|discriminate]. destruct (lock_eq _ _); [|discriminate].
  cbn [andb]. intros E. apply Nat.eqb_eq in E. subst. auto.
Qed.
Lemma play_reaches kind n ok (allowed : sys -> request -> Prop) (A : forall s q, ok s q = true -> allowed s q) evs (check : sys -> bool) :
  match play kind n ok evs start with Some s => check s | None => false end = true ->
  exists s, happens kind n allowed s /\ check s = true.
Proof.
  destruct (play kind n ok evs start) as [s|] eqn:E; [|discriminate]. intros C. exists s. split; [|exact C].
  eapply play_happens; [exact A|apply ha_start|exact E].
Qed.

(** Dasher 0, encoder 1. *)
Definition kinds (f : nat) : fkind := match f with O => Dash | _ => Other end.
Definition telling := mkRound 0 [Tell 1] Plain Plain [] [].
Definition encoding := mkRound 1 [] Plain Plain [] [].

(** An encoder is connected to the dasher that already reads from it, which is then refused, just when the dasher sends it an event: the
    control thread has the encoder and wants the dasher, the worker the other way round. *)
Theorem C99_connect_again_refuted : exists kind s,
  happens kind 1 (fun _ q => match q with Connects a b _ _ => a <> b | _ => True end) s /\ deadlock s [0; 1]%nat.
Proof.
  exists kinds.
  destruct (play_reaches kinds 1 (fun _ q => match q with Connects a b _ _ => negb (a =? b)%nat | _ => true end)
    (fun _ q => match q with Connects a b _ _ => a <> b | _ => True end)) with
    (evs := [Req (Connects 1 0 false (Connected 0)); Act 0 13; Rnd 1 telling; Act 1 9; Req (Connects 1 0 false Refused); Act 0 4; Act 1 2; Act 0 1])
    (check := fun s => waits s 0 (Fil 0) 1 && waits s 1 (Fil 1) 0) as (s & H & C).
  - intros s q E. destruct q; try exact I. apply negb_true_iff, Nat.eqb_neq in E. exact E.
  - vm_compute. reflexivity.
  - exists s. split; [exact H|]. apply andb_true_iff in C as [C1 C2]. apply waits_spec in C1 as [N1 O1], C2 as [N2 O2].
    split; [discriminate|]. intros t [<-|[<-|[]]]; [exists (Fil 0), 1%nat|exists (Fil 1), 0%nat]; (split; [assumption|split; [assumption|cbn; tauto]]).
Qed.
Print Assumptions C99_connect_again_refuted.

(** The hypotheses of the theorems are met where threads do wait for each other: two workers, one sending an event to the encoder that the
    other runs, which has its own lock, and a request that waits for the dasher. *)
Example C99_not_vacuous : exists s, happens kinds 2 (careful kinds) s /\
  needs s 1 (Fil 1) /\ own s (Fil 1) = Some 2%nat /\ needs s 0 (Fil 0) /\ own s (Fil 0) = Some 1%nat.
Proof.
  destruct (play_reaches kinds 2 (fun s q => match q with Connects a b _ _ => negb (a =? b)%nat && match fed s with [] => true | _ => false end | Shares _ _ _ _ _ => false | _ => true end)
    (careful kinds)) with
    (evs := [Req (Connects 1 0 false (Connected 0)); Act 0 13; Rnd 1 telling; Act 1 9; Rnd 2 encoding; Act 2 4; Act 1 2; Req (Calls 0 Plain)])
    (check := fun s => waits s 1 (Fil 1) 2 && waits s 0 (Fil 0) 1) as (s & H & C).
  - intros s q E. destruct q; try exact I; [|discriminate]. apply andb_true_iff in E as [E F]. apply negb_true_iff, Nat.eqb_neq in E. split; [exact E|].
    intros (_ & _ & X). destruct (fed s); [destruct X|discriminate].
  - vm_compute. reflexivity.
  - exists s. apply andb_true_iff in C as [C1 C2]. apply waits_spec in C1 as [N1 O1], C2 as [N2 O2]. auto 6.
Qed.
