(** Proofs for C99. *)
From Verif Require Import Base LckModel LckSpec.

Definition rank (l : lock) : nat := match l with Run _ => 0 | Pool => 1 | Fil _ => 2 | Rdr _ => 3 | Aud _ => 4 end.
Definition below (h : list lock) (l : lock) : Prop := forall x, In x h -> (rank x < rank l)%nat.
Definition fd2 (kind : nat -> fkind) (d e : nat) (fd : list (nat * nat)) := match kind e with Dash => fd | _ => (d, e) :: fd end.
Definition oneFil (h : list lock) (d : nat) : Prop := In (Fil d) h /\ forall x, In x h -> x = Fil d \/ (rank x < 2)%nat.
Definition exc (kind : nat -> fkind) (fd : list (nat * nat)) (h : list lock) (l : lock) : Prop :=
  exists a b, l = Fil b /\ (forall x, In x h <-> x = Fil a) /\ a <> b /\ ~ (kind a = Other /\ kind b = Dash /\ In (b, a) fd).
Definition drop (l : lock) (h : list lock) := List.remove lock_eq l h.
Lemma in_drop l h x : In x (drop l h) <-> In x h /\ x <> l.
Proof. unfold drop. split; [intros H; apply in_remove in H; exact H|intros [A B]; apply in_in_remove; auto]. Qed.

Fixpoint disc (kind : nat -> fkind) (ctl : bool) (fd : list (nat * nat)) (h : list lock) (p : list act) : Prop :=
  match p with
  | [] => forall x, ~ In x h
  | Acq l :: q => (below h l \/ (ctl = true /\ exc kind fd h l)) /\ disc kind ctl fd (l :: h) q
  | Rel l :: q => In l h /\ disc kind ctl fd (drop l h) q
  | Pick f :: q => ctl = false /\ (forall x, In x h <-> x = Pool) /\ disc kind ctl fd (Run f :: h) q
  | Await f :: q => ctl = true /\ (forall x, ~ In x h) /\ disc kind ctl fd h q
  | Ask d e :: q => ctl = false /\ kind d = Dash /\ oneFil h d /\ disc kind ctl fd h q
  | Link d e :: q => ctl = true /\ disc kind ctl (fd2 kind d e fd) h q
  | Unlink d e :: q => ctl = true /\ In (Fil d) h /\ disc kind ctl (less (d, e) fd) h q
  end.

Lemma disc_ext kind ctl p : forall fd h h', (forall x, In x h <-> In x h') -> disc kind ctl fd h p -> disc kind ctl fd h' p.
Proof.
  induction p as [|a p IH]; intros fd h h' E D; cbn [disc] in *.
  - intros x X. apply (D x), E, X.
  - destruct a as [l|l|f|f|d e|d e|d e].
    + destruct D as [A B]. split.
      * destruct A as [A|[A (u & v & A1 & A2 & A3)]]; [left; intros x X; apply A, E, X|right]. split; [exact A|].
        exists u, v. split; [exact A1|]. split; [intros x; rewrite <- E; apply A2|exact A3].
      * eapply IH; [|exact B]. intros x. cbn. rewrite (E x). tauto.
    + destruct D as [A B]. split; [apply E, A|]. eapply IH; [|exact B]. intros x. rewrite !in_drop, (E x). tauto.
    + destruct D as (A & B & C). split; [exact A|]. split; [intros x; rewrite <- E; apply B|]. eapply IH; [|exact C]. intros x. cbn. rewrite (E x). tauto.
    + destruct D as (A & B & C). split; [exact A|]. split; [intros x X; apply (B x), E, X|]. eapply IH; eauto.
    + destruct D as (A & B & (C1 & C2) & C). split; [exact A|]. split; [exact B|]. split; [split; [apply E, C1|intros x X; apply C2, E, X]|]. eapply IH; eauto.
    + destruct D as (A & C). split; [exact A|]. eapply IH; eauto.
    + destruct D as (A & B & C). split; [exact A|]. split; [apply E, B|]. eapply IH; eauto.
Qed.

Lemma below_notin h l : below h l -> ~ In l h.
Proof. intros B I. specialize (B l I). lia. Qed.
Lemma drop_cons l h : ~ In l h -> forall x, In x (drop l (l :: h)) <-> In x h.
Proof. intros N x. rewrite in_drop. cbn. split; [intros [[A|A] B]; congruence|intros A; split; [tauto|intros ->; tauto]]. Qed.

(** A scope whose lock is above all that is held. *)
Lemma d_guarded kind ctl fd fd' h l body p : below h l ->
  (forall q, disc kind ctl fd' (l :: h) q -> disc kind ctl fd (l :: h) (body ++ q)) ->
  disc kind ctl fd' h p -> disc kind ctl fd h (guarded l body ++ p).
Proof.
  intros B F D. unfold guarded. cbn [app disc]. split; [left; exact B|]. rewrite <- app_assoc. apply F. cbn [app disc]. split; [left; reflexivity|].
  eapply disc_ext; [|exact D]. intros x. symmetry. apply drop_cons, below_notin, B.
Qed.
(** A scope of another filter within a filter's scope, of the control thread. *)
Lemma d_nested kind fd h l p : exc kind fd h l -> disc kind true fd h p -> disc kind true fd h (guarded l [] ++ p).
Proof.
  intros B D. unfold guarded. cbn [app disc]. split; [right; auto|]. split; [left; reflexivity|].
  eapply disc_ext; [|exact D]. intros x. symmetry. apply drop_cons. destruct B as (a & b & -> & A & N & _). rewrite A. intros X. injection X as X. congruence.
Qed.
Lemma d_flat kind ctl fd h {A} (f : A -> list act) : (forall x q, disc kind ctl fd h q -> disc kind ctl fd h (f x ++ q)) ->
  forall xs p, disc kind ctl fd h p -> disc kind ctl fd h (flat_map f xs ++ p).
Proof. intros F. induction xs as [|x xs IH]; intros p D; cbn [flat_map app]; [exact D|]. rewrite <- app_assoc. auto. Qed.

Definition upto (h : list lock) (n : nat) : Prop := forall x, In x h -> (rank x < n)%nat.
Lemma d_queue kind ctl fd h q p : upto h 4 -> disc kind ctl fd h p -> disc kind ctl fd h (onQueue q ++ p).
Proof. intros U D. apply d_guarded with (fd' := fd); auto. Qed.
Lemma d_queues kind ctl fd h qs p : upto h 4 -> disc kind ctl fd h p -> disc kind ctl fd h (flat_map onQueue qs ++ p).
Proof. intros U D. apply d_flat; [|exact D]. intros. now apply d_queue. Qed.
Lemma upto_cons h n l m : upto h n -> (n <= m)%nat -> (rank l < m)%nat -> upto (l :: h) m.
Proof. intros U L R x [<-|X]; [exact R|]. specialize (U x X). lia. Qed.
Lemma d_reader kind ctl fd h x p : upto h 3 -> disc kind ctl fd h p -> disc kind ctl fd h (onReader x ++ p).
Proof.
  intros U D. apply d_guarded with (fd' := fd); auto. intros q Q. apply d_queues; [|exact Q]. eapply upto_cons; eauto; cbn; lia.
Qed.
Lemma d_readers kind ctl fd h xs p : upto h 3 -> disc kind ctl fd h p -> disc kind ctl fd h (flat_map onReader xs ++ p).
Proof. intros U D. apply d_flat; [|exact D]. intros. now apply d_reader. Qed.

Lemma d_call kind ctl fd h f c p : upto h 2 -> disc kind ctl fd h p -> disc kind ctl fd h (call f c ++ p).
Proof.
  intros U D. assert (B : below h (Fil f)) by (intros x X; apply U, X).
  assert (U3 : upto (Fil f :: h) 3) by (eapply upto_cons; eauto; cbn; lia).
  assert (U4 : upto (Fil f :: h) 4) by (eapply upto_cons; eauto; cbn; lia).
  destruct c as [|qs rs|qs|r]; cbn [call].
  - apply d_guarded with (fd' := fd); auto.
  - apply d_guarded with (fd' := fd); auto. intros q Q. rewrite <- app_assoc. apply d_queues; [exact U4|]. now apply d_readers.
  - apply d_guarded with (fd' := fd); auto. intros q Q. now apply d_queues.
  - rewrite <- app_assoc. apply d_guarded with (fd' := fd); auto. apply d_reader; auto. intros x X. specialize (U x X). lia.
Qed.

Lemma upto_nil n : upto [] n.
Proof. intros x []. Qed.
Lemma nil_below l : below [] l.
Proof. intros x []. Qed.

Lemma d_request kind s q : careful kind s q -> disc kind true (fed s) [] (requestActs q).
Proof.
  intros C. rewrite <- (app_nil_r (requestActs q)). assert (N : forall fd, disc kind true fd [] []) by (intros fd x []).
  destruct q as [f c| |a b t o|a b r w o|d e r|f rs]; cbn [requestActs].
  - apply d_call; [apply upto_nil|auto].
  - apply d_guarded with (fd' := fed s); auto. apply nil_below.
  - destruct C as [AB U]. unfold connect. rewrite <- !app_assoc. do 2 (apply d_call; [apply upto_nil|]).
    assert (X : exc kind (fed s) [Fil a] (Fil b)).
    { exists a, b. split; [reflexivity|]. split; [intros x; cbn; split; [intros [Q|[]]; auto|auto]|]. split; [exact AB|exact U]. }
    assert (U3 : upto [Fil a] 3) by (intros x [<-|[]]; cbn; lia).
    destruct o as [| |r].
    + apply d_guarded with (fd' := fed s); auto; [apply nil_below|]. intros q Q. rewrite <- !app_assoc. apply d_nested; [exact X|].
      destruct t; [apply d_nested; [exact X|]|]; exact Q.
    + apply d_guarded with (fd' := fed s); auto; [apply nil_below|]. intros q Q. rewrite <- !app_assoc. apply d_nested; [exact X|].
      destruct t; [apply d_nested; [exact X|]|]; (apply d_nested; [exact X|exact Q]).
    + apply d_guarded with (fd' := fd2 kind b a (fed s)); auto; [apply nil_below|]. intros q Q. rewrite <- !app_assoc. apply d_nested; [exact X|].
      destruct t; [apply d_nested; [exact X|]|]; (apply d_nested; [exact X|]; apply d_reader; [exact U3|]; cbn [app disc]; auto).
  - cbn [careful] in C. unfold share. destruct (Nat.eqb_spec a b) as [E|AB].
    + apply d_guarded with (fd' := fed s); auto. apply nil_below.
    + assert (X : exc kind (fed s) [Fil a] (Fil b)).
      { exists a, b. split; [reflexivity|]. split; [intros x; cbn; split; [intros [Q|[]]; auto|auto]|]. split; [exact AB|exact C]. }
      assert (U3 : upto [Fil a] 3) by (intros x [<-|[]]; cbn; lia).
      destruct o.
      * apply d_guarded with (fd' := fd2 kind b w (fed s)); auto; [apply nil_below|]. intros q Q. rewrite <- !app_assoc.
        apply d_nested; [exact X|]. apply d_reader; [exact U3|]. cbn [app disc]. auto.
      * apply d_guarded with (fd' := fed s); auto; [apply nil_below|]. intros q Q. rewrite <- !app_assoc. apply d_nested; [exact X|]. exact Q.
  - unfold disconnectReader. apply d_guarded with (fd' := less (d, e) (fed s)); auto; [apply nil_below|]. intros q Q. cbn [app disc].
    split; [left; intros x [<-|[]]; cbn; lia|]. split; [reflexivity|]. split; [right; left; reflexivity|]. split; [left; reflexivity|].
    apply disc_ext with (h := [Fil d]); [intros x; rewrite drop_cons by (intros [Y|[]]; discriminate); reflexivity|].
    apply d_reader; [intros x [<-|[]]; cbn; lia|exact Q].
  - unfold destroy. rewrite <- !app_assoc. apply d_guarded with (fd' := fed s); auto; [apply nil_below|]. cbn [app disc]. split; [reflexivity|].
    split; [intros x []|]. apply d_call; [apply upto_nil|auto].
Qed.

Lemma d_round kind fd x : disc kind false fd [] (roundActs kind x).
Proof.
  unfold roundActs. set (f := ofFilter x). cbn [app disc]. split; [left; apply nil_below|]. split; [reflexivity|].
  split; [intros y; cbn; split; [intros [Q|[]]; auto|auto]|]. split; [right; left; reflexivity|].
  assert (R : forall p, disc kind false fd [Run f] p -> disc kind false fd (drop Pool [Run f; Pool]) p).
  { intros p. apply disc_ext. intros y. rewrite in_drop. cbn. split; [intros [<-|[]]; split; [auto|discriminate]|intros [[<-|[<-|[]]] Q]; [auto|congruence]]. }
  apply R. unfold processFrame. rewrite <- !app_assoc.
  assert (U : upto [Run f] 2) by (intros y [<-|[]]; cbn; lia).
  do 3 (apply d_call; [exact U|]). apply d_flat.
  - intros p q Q. destruct p as [c|e]; cbn [pieceActs]; [apply d_call; assumption|]. destruct (kind f) eqn:K; cbn [app]; try exact Q.
    apply d_guarded with (fd' := fd); [intros y [<-|[]]; cbn; lia| |exact Q]. intros r G. cbn [app disc]. split; [reflexivity|]. split; [exact K|]. split; [|exact G].
    split; [left; reflexivity|]. intros y [<-|[<-|[]]]; [auto|right; cbn; lia].
  - do 2 (apply d_call; [exact U|]). cbn [app disc]. split; [left; intros y [<-|[]]; cbn; lia|]. split; [right; left; reflexivity|].
    apply disc_ext with (h := [Pool]).
    { intros y. rewrite in_drop. cbn. split; [intros [<-|[]]; split; [auto|discriminate]|intros [[<-|[<-|[]]] Q]; [auto|congruence]]. }
    apply d_call; [intros y [<-|[]]; cbn; lia|]. cbn [disc]. split; [left; reflexivity|]. intros y Y. apply in_drop in Y as [[Y|[]] Z]. congruence.
Qed.

(** ** The invariant *)
Definition okT (kind : nat -> fkind) (t : nat) (fd : list (nat * nat)) (h : list lock) (p : list act) : Prop :=
  disc kind (t =? 0)%nat fd h p \/
  (t <> 0%nat /\ exists d e q, p = Acq (Fil e) :: Rel (Fil e) :: q /\ disc kind false fd h q /\ oneFil h d /\ kind d = Dash /\ kind e = Other /\ In (d, e) fd).
Definition inv (kind : nat -> fkind) (n : nat) (s : sys) : Prop :=
  (forall t, (n < t)%nat -> prog s t = []) /\
  (forall d e, In (d, e) (fed s) -> kind e <> Dash) /\
  exists hs, (forall t, okT kind t (fed s) (hs t) (prog s t)) /\ forall l t, own s l = Some t <-> In l (hs t).

(** The discipline of workers does not depend on who reads from whom. *)
Lemma disc_w kind fd fd' p : forall h, disc kind false fd h p -> disc kind false fd' h p.
Proof.
  induction p as [|a p IH]; intros h D; cbn [disc] in *; [exact D|].
  destruct a as [l|l|f|f|d e|d e|d e]; try (destruct D as [D _]; discriminate D).
  - destruct D as [[A|[A _]] B]; [|discriminate A]. auto.
  - destruct D as [A B]. auto.
  - destruct D as (A & B & C). auto.
  - destruct D as (A & B & C & D). auto 6.
Qed.

Lemma less_in x l y : In y (less x l) -> In y l.
Proof. induction l as [|z r IH]; cbn [less]; [auto|]. destruct (pair_eq x z); cbn; tauto. Qed.
Lemma pair_eq_spec x y : pair_eq x y = true <-> x = y.
Proof. destruct x as [a b], y as [c d]. unfold pair_eq. cbn. rewrite andb_true_iff, !Nat.eqb_eq. split; [intros [-> ->]; reflexivity|intros E; injection E; auto]. Qed.
Lemma less_other x l y : In y l -> fst x <> fst y -> In y (less x l).
Proof.
  induction l as [|z r IH]; cbn [less In]; [tauto|]. intros [<-|I] N.
  - destruct (pair_eq x z) eqn:E; [|left; reflexivity]. apply pair_eq_spec in E. congruence.
  - destruct (pair_eq x z) eqn:E; [exact I|right; auto].
Qed.
Lemma fed_in x l : existsb (pair_eq x) l = true -> In x l.
Proof. intros E. apply existsb_exists in E as (y & I & E). apply pair_eq_spec in E. now subst. Qed.

Definition upd {A} (f : nat -> A) (t : nat) (v : A) : nat -> A := fun u => if (u =? t)%nat then v else f u.
Lemma upd_eq {A} (f : nat -> A) t v : upd f t v t = v.
Proof. unfold upd. now rewrite Nat.eqb_refl. Qed.
Lemma upd_neq {A} (f : nat -> A) t v u : u <> t -> upd f t v u = f u.
Proof. intros N. unfold upd. now rewrite (proj2 (Nat.eqb_neq u t)). Qed.

Lemma inv_start kind n : inv kind n start.
Proof.
  split; [reflexivity|]. split; [intros d e []|]. exists (fun _ => []). split; [|intros l t; cbn; split; [discriminate|tauto]].
  intros t. left. cbn. intros x [].
Qed.

Lemma idle_nothing kind n s hs t : (forall u, okT kind u (fed s) (hs u) (prog s u)) -> prog s t = [] -> inv kind n s -> forall x, ~ In x (hs t).
Proof. intros O E _. destruct (O t) as [D|(_ & d & e & q & P & _)]; rewrite E in *; [exact D|discriminate P]. Qed.

Lemma inv_begin kind n s t p : inv kind n s -> (t <= n)%nat -> prog s t = [] -> disc kind (t =? 0)%nat (fed s) [] p -> inv kind n (setProg t p s).
Proof.
  intros I L E D. pose proof I as (A & B & hs & O & W). split.
  - intros u U. cbn. destruct (Nat.eqb_spec u t); [lia|]. apply A, U.
  - split; [exact B|]. exists hs. split; [|exact W]. intros u. cbn [prog fed setProg]. destruct (Nat.eqb_spec u t) as [->|N]; [|apply O].
    left. eapply disc_ext; [|exact D]. intros x. split; [intros []|]. intros X. exfalso. exact (idle_nothing kind n s hs t O E I x X).
Qed.

Lemma okT_grow kind t fd fd' h p : t <> 0%nat -> (forall d e, In (Fil d) h -> In (d, e) fd -> In (d, e) fd') -> okT kind t fd h p -> okT kind t fd' h p.
Proof.
  intros T G [D|(_ & d & e & q & P & D & O & K & L & I)].
  - left. rewrite (proj2 (Nat.eqb_neq t 0)) in * by exact T. eapply disc_w, D.
  - right. split; [exact T|]. exists d, e, q. split; [exact P|]. split; [eapply disc_w, D|]. split; [exact O|]. split; [exact K|]. split; [exact L|].
    apply G; [apply O|exact I].
Qed.

Lemma own_some s l t (hs : nat -> list lock) : (forall k u, own s k = Some u <-> In k (hs u)) -> In l (hs t) -> forall u, In l (hs u) -> u = t.
Proof. intros W A u B. apply W in A, B. congruence. Qed.

(** Taking and releasing, as seen by who holds what. *)
Lemma own_acq s l t hs : (forall k u, own s k = Some u <-> In k (hs u)) -> own s l = None -> forall p k u,
  own (setOwn l (Some t) (setProg t p s)) k = Some u <-> In k (upd hs t (l :: hs t) u).
Proof.
  intros W N p k u. cbn. destruct (lock_eq k l) as [->|K].
  - destruct (Nat.eq_dec u t) as [->|U]; [rewrite upd_eq; cbn; tauto|]. rewrite upd_neq by exact U. split; [intros E; congruence|].
    intros I. apply W in I. congruence.
  - rewrite W. destruct (Nat.eq_dec u t) as [->|U]; [rewrite upd_eq; cbn; split; [auto|intros [E|E]; [congruence|exact E]]|]. rewrite upd_neq by exact U. reflexivity.
Qed.
Lemma own_rel s l t hs : (forall k u, own s k = Some u <-> In k (hs u)) -> In l (hs t) -> forall p k u,
  own (setOwn l None (setProg t p s)) k = Some u <-> In k (upd hs t (drop l (hs t)) u).
Proof.
  intros W N p k u. cbn. destruct (lock_eq k l) as [->|K].
  - split; [discriminate|]. intros I. exfalso. destruct (Nat.eq_dec u t) as [->|U]; [rewrite upd_eq in I; apply in_drop in I as [_ I]; congruence|].
    rewrite upd_neq in I by exact U. apply U. apply (own_some s l t hs W N u I).
  - rewrite W. destruct (Nat.eq_dec u t) as [->|U]; [rewrite upd_eq, in_drop; tauto|]. rewrite upd_neq by exact U. reflexivity.
Qed.

Lemma inv_acq kind n s t l p hs : (forall t, (n < t)%nat -> prog s t = []) -> (t <= n)%nat -> (forall d e, In (d, e) (fed s) -> kind e <> Dash) ->
  (forall u, okT kind u (fed s) (hs u) (prog s u)) -> (forall k u, own s k = Some u <-> In k (hs u)) -> own s l = None ->
  okT kind t (fed s) (l :: hs t) p -> inv kind n (setOwn l (Some t) (setProg t p s)).
Proof.
  intros A L B O W N K. split; [intros u U; cbn; destruct (Nat.eqb_spec u t); [lia|apply A, U]|]. split; [exact B|].
  exists (upd hs t (l :: hs t)). split; [|apply own_acq; assumption].
  intros u. cbn [prog fed setProg setOwn]. destruct (Nat.eqb_spec u t) as [->|U]; [rewrite upd_eq; exact K|rewrite upd_neq by exact U; apply O].
Qed.
Lemma inv_rel kind n s t l p hs : (forall t, (n < t)%nat -> prog s t = []) -> (t <= n)%nat -> (forall d e, In (d, e) (fed s) -> kind e <> Dash) ->
  (forall u, okT kind u (fed s) (hs u) (prog s u)) -> (forall k u, own s k = Some u <-> In k (hs u)) -> In l (hs t) ->
  okT kind t (fed s) (drop l (hs t)) p -> inv kind n (setOwn l None (setProg t p s)).
Proof.
  intros A L B O W N K. split; [intros u U; cbn; destruct (Nat.eqb_spec u t); [lia|apply A, U]|]. split; [exact B|].
  exists (upd hs t (drop l (hs t))). split; [|apply own_rel; assumption].
  intros u. cbn [prog fed setProg setOwn]. destruct (Nat.eqb_spec u t) as [->|U]; [rewrite upd_eq; exact K|rewrite upd_neq by exact U; apply O].
Qed.
Lemma inv_go kind n s t p fd hs : (forall t, (n < t)%nat -> prog s t = []) -> (t <= n)%nat -> (forall d e, In (d, e) fd -> kind e <> Dash) ->
  (forall u, u <> t -> okT kind u fd (hs u) (prog s u)) -> (forall k u, own s k = Some u <-> In k (hs u)) ->
  okT kind t fd (hs t) p -> inv kind n (setFed fd (setProg t p s)).
Proof.
  intros A L B O W K. split; [intros u U; cbn; destruct (Nat.eqb_spec u t); [lia|apply A, U]|]. split; [exact B|].
  exists hs. split; [|exact W].
  intros u. cbn [prog fed setProg setFed]. destruct (Nat.eqb_spec u t) as [->|U]; [exact K|apply O, U].
Qed.

Lemma inv_exec kind n s t s' : inv kind n s -> exec kind t s = Some s' -> inv kind n s'.
Proof.
  intros (A & B & hs & O & W) E. unfold exec in E. destruct (prog s t) as [|a p] eqn:P; [discriminate|].
  assert (L : (t <= n)%nat) by (destruct (Nat.le_gt_cases t n) as [L|L]; [exact L|rewrite (A t L) in P; discriminate]).
  pose proof (O t) as K. rewrite P in K.
  assert (SF : forall q, setProg t q s = setFed (fed s) (setProg t q s)) by reflexivity.
  destruct K as [D|(T & d & e & q & Q & D & OF & KD & KE & I)].
  - cbn [disc] in D. destruct a as [l|l|f|f|d e|d e|d e]; cbv zeta in E.
    + destruct D as [_ D]. destruct (own s l) eqn:OL; [discriminate|]. injection E as <-. eapply inv_acq; eauto. left; exact D.
    + destruct D as [D1 D]. rewrite (proj2 (W l t) D1), Nat.eqb_refl in E. injection E as <-. eapply inv_rel; eauto. left; exact D.
    + destruct D as (CT & HP & D). destruct (own s (Run f)) eqn:OL; injection E as <-.
      * rewrite SF. eapply inv_go; eauto. left. cbn [disc]. split; [apply HP; reflexivity|]. intros x X. apply in_drop in X as [X Y]. apply HP in X. congruence.
      * eapply inv_acq; eauto. left; exact D.
    + destruct D as (CT & HP & D). destruct (own s (Run f)) eqn:OL; [discriminate|]. injection E as <-. rewrite SF. eapply inv_go; eauto. left; exact D.
    + destruct D as (CT & KD & OF & D). assert (G : inv kind n (setProg t p s)) by (rewrite SF; eapply inv_go; eauto; left; exact D).
      destruct (existsb _ _) eqn:X; [|injection E as <-; exact G]. apply fed_in in X. specialize (B d e X) as BE.
      destruct (kind e) eqn:KE; [congruence|injection E as <-; exact G|]. injection E as <-. rewrite SF. eapply inv_go; eauto.
      right. split; [now apply Nat.eqb_neq|]. exists d, e, p. rewrite CT in D. auto 8.
    + destruct D as (CT & D). apply Nat.eqb_eq in CT. subst t. unfold fd2 in D.
      assert (G : kind e <> Dash -> inv kind n (setFed ((d, e) :: fed s) (setProg 0 p s))).
      { intros KE. eapply inv_go; eauto.
        - intros d' e' [X|X]; [injection X as <- <-; exact KE|eapply B, X].
        - intros u U. eapply okT_grow; [exact U| |apply O]. intros; right; assumption.
        - left. destruct (kind e); [congruence|exact D|exact D]. }
      injection E as <-. destruct (kind e) eqn:KE; [|apply G; discriminate|apply G; discriminate]. rewrite SF. eapply inv_go; eauto. left; exact D.
    + destruct D as (CT & HD & D). apply Nat.eqb_eq in CT. subst t. injection E as <-. eapply inv_go; eauto.
      * intros d' e' X. eapply B, less_in, X.
      * intros u U. eapply okT_grow; [exact U| |apply O]. intros d' e' X Y. apply less_other; [exact Y|]. cbn. intros ->.
        apply U. apply (own_some s (Fil d') 0%nat hs W HD u X).
      * left; exact D.
  - injection Q as -> ->. cbv zeta in E. destruct (own s (Fil e)) eqn:OL; [discriminate|]. injection E as <-. eapply inv_acq; eauto. left.
    rewrite (proj2 (Nat.eqb_neq t 0)) by exact T. cbn [disc]. split; [left; reflexivity|]. eapply disc_ext; [|exact D]. intros x. symmetry. apply drop_cons.
    intros X. apply OF in X as [X|X]; [injection X as X; congruence|cbn in X; lia].
Qed.

Lemma happens_inv kind n s : happens kind n (careful kind) s -> inv kind n s.
Proof.
  induction 1 as [|s q H IH E C|s t x H IH L E|s t s' H IH E].
  - apply inv_start.
  - apply inv_begin; auto; [lia|]. cbn [Nat.eqb]. now apply d_request.
  - apply inv_begin; auto; [lia|]. rewrite (proj2 (Nat.eqb_neq t 0)) by lia. apply d_round.
  - eapply inv_exec; eauto.
Qed.

(** ** Somebody can always go on *)
Section Progress.
Variables (kind : nat -> fkind) (s : sys) (hs : nat -> list lock).
Hypothesis O : forall t, okT kind t (fed s) (hs t) (prog s t).
Hypothesis W : forall l t, own s l = Some t <-> In l (hs t).
Definition somebody : Prop := exists t s', exec kind t s = Some s'.

(** What a thread's next action may be. *)
Lemma next t : somebody \/ (prog s t = [] /\ forall x, ~ In x (hs t)) \/
  (exists l u, needs s t l /\ own s l = Some u /\ (below (hs t) l \/ (t = 0%nat /\ exc kind (fed s) (hs t) l) \/
     (t <> 0%nat /\ exists d e, l = Fil e /\ oneFil (hs t) d /\ kind d = Dash /\ kind e = Other /\ In (d, e) (fed s)))).
Proof.
  pose proof (O t) as K. unfold somebody. destruct (prog s t) as [|a p] eqn:P.
  - right. left. split; [reflexivity|]. destruct K as [D|(_ & d & e & q & Q & _)]; [exact D|discriminate Q].
  - assert (X : forall s', exec kind t s = Some s' -> exists t s', exec kind t s = Some s') by eauto.
    unfold exec in X. rewrite P in X. cbv zeta in X.
    destruct a as [l|l|f|f|d e|d e|d e].
    + destruct (own s l) as [u|] eqn:OL; [|left; eapply X; reflexivity]. right; right. exists l, u. unfold needs. rewrite P.
      split; [reflexivity|]. split; [exact OL|]. destruct K as [D|(T & d & e & q & Q & D & OF & KD & KE & I)].
      * cbn [disc] in D. destruct D as [[D|[C D]] _]; [left; exact D|right; left]. split; [now apply Nat.eqb_eq|exact D].
      * injection Q as -> _. right; right. split; [exact T|]. exists d, e. auto.
    + left. destruct K as [D|(T & d & e & q & Q & _)]; [|discriminate Q]. cbn [disc] in D. destruct D as [D _].
      rewrite (proj2 (W l t) D), Nat.eqb_refl in X. eapply X. reflexivity.
    + left. destruct (own s (Run f)); eapply X; reflexivity.
    + destruct (own s (Run f)) as [u|] eqn:OL; [|left; eapply X; reflexivity]. right; right. exists (Run f), u. unfold needs. rewrite P.
      split; [reflexivity|]. split; [exact OL|]. left. destruct K as [D|(T & d & e & q & Q & _)]; [|discriminate Q].
      cbn [disc] in D. destruct D as (_ & D & _). intros x I. exfalso. exact (D x I).
    + left. destruct (existsb _ _); [destruct (kind e)|]; eapply X; reflexivity.
    + left. eapply X. reflexivity.
    + left. eapply X. reflexivity.
Qed.

Lemma hasAud q u : own s (Aud q) = Some u -> somebody.
Proof.
  intros H. apply W in H. destruct (next u) as [S|[[_ I]|(l & v & N & OL & [L|[[T (a & b & E & X & _)]|(T & d & e & E & [X Y] & _)]])]]; [exact S|destruct (I _ H)| | |].
  - specialize (L _ H). destruct l; cbn in L; lia.
  - apply X in H. discriminate.
  - apply Y in H as [H|H]; [discriminate|cbn in H; lia].
Qed.
Lemma hasRdr r u : own s (Rdr r) = Some u -> somebody.
Proof.
  intros H. apply W in H. destruct (next u) as [S|[[_ I]|(l & v & N & OL & [L|[[T (a & b & E & X & _)]|(T & d & e & E & [X Y] & _)]])]]; [exact S|destruct (I _ H)| | |].
  - specialize (L _ H). destruct l; cbn in L; try lia. eapply hasAud, OL.
  - apply X in H. discriminate.
  - apply Y in H as [H|H]; [discriminate|cbn in H; lia].
Qed.
Lemma hasHigh l u : own s l = Some u -> (2 < rank l)%nat -> somebody.
Proof. destruct l; cbn [rank]; intros H L; try lia; [eapply hasRdr, H|eapply hasAud, H]. Qed.

(** A worker that has the lock of a filter that is no dasher. *)
Lemma hasPlain f u : own s (Fil f) = Some u -> u <> 0%nat -> kind f <> Dash -> somebody.
Proof.
  intros H U K. apply W in H. destruct (next u) as [S|[[_ I]|(l & v & N & OL & [L|[[T _]|(T & d & e & E & [X Y] & KD & _)]])]]; [exact S|destruct (I _ H)| |congruence|].
  - eapply hasHigh; [exact OL|apply (L _ H)].
  - apply Y in H as [H|H]; [injection H as ->; congruence|cbn in H; lia].
Qed.
(** The control thread has a filter's lock. *)
Lemma hasCtl f : own s (Fil f) = Some 0%nat -> somebody.
Proof.
  intros H. apply W in H. destruct (next 0) as [S|[[_ I]|(l & v & N & OL & [L|[[_ (a & b & E & X & AB & NU)]|(T & _)]])]]; [exact S|destruct (I _ H)| | |congruence].
  - eapply hasHigh; [exact OL|apply (L _ H)].
  - subst l. assert (v <> 0%nat) as V by (intros ->; apply W, X in OL; injection OL as OL; congruence).
    pose proof OL as HB. apply W in HB.
    destruct (next v) as [S|[[_ I]|(l & w & M & OM & [L|[[T _]|(T & d & e & E & [XD YD] & KD & KE & IN)]])]]; [exact S|destruct (I _ HB)| |congruence|].
    + eapply hasHigh; [exact OM|apply (L _ HB)].
    + subst l. assert (d = b) as -> by (apply YD in HB as [HB|HB]; [injection HB as ->; reflexivity|cbn in HB; lia]).
      destruct (Nat.eq_dec w 0) as [->|WN]; [|eapply hasPlain; [exact OM|exact WN|congruence]].
      apply W, X in OM. injection OM as ->. exfalso. apply NU. auto.
Qed.
Lemma hasFil f u : own s (Fil f) = Some u -> somebody.
Proof.
  intros H. destruct (Nat.eq_dec u 0) as [->|U]; [eapply hasCtl, H|]. apply W in H.
  destruct (next u) as [S|[[_ I]|(l & v & N & OL & [L|[[T _]|(T & d & e & E & [X Y] & KD & KE & _)]])]]; [exact S|destruct (I _ H)| |congruence|].
  - eapply hasHigh; [exact OL|apply (L _ H)].
  - subst l. destruct (Nat.eq_dec v 0) as [->|V]; [eapply hasCtl, OL|eapply hasPlain; [exact OL|exact V|congruence]].
Qed.
Lemma hasMid l u : own s l = Some u -> (1 < rank l)%nat -> somebody.
Proof. destruct l as [| f | | |]; intros H L; cbn in L; try lia; [eapply hasFil, H|eapply hasRdr, H|eapply hasAud, H]. Qed.
Lemma hasPool u : own s Pool = Some u -> somebody.
Proof.
  intros H. apply W in H. destruct (next u) as [S|[[_ I]|(l & v & N & OL & [L|[[T (a & b & E & _)]|(T & d & e & E & _)]])]]; [exact S|destruct (I _ H)| | |].
  - eapply hasMid; [exact OL|apply (L _ H)].
  - subst l. eapply hasFil, OL.
  - subst l. eapply hasFil, OL.
Qed.
Lemma hasRun f u : own s (Run f) = Some u -> somebody.
Proof.
  intros H. apply W in H. destruct (next u) as [S|[[_ I]|(l & v & N & OL & [L|[[T (a & b & E & _)]|(T & d & e & E & _)]])]]; [exact S|destruct (I _ H)| | |].
  - specialize (L _ H). cbn in L. destruct l; cbn in L; try lia; [eapply hasPool, OL|eapply hasFil, OL|eapply hasRdr, OL|eapply hasAud, OL].
  - subst l. eapply hasFil, OL.
  - subst l. eapply hasFil, OL.
Qed.
Lemma hasAny l u : own s l = Some u -> somebody.
Proof. destruct l; intros H; [eapply hasPool, H|eapply hasFil, H|eapply hasRdr, H|eapply hasAud, H|eapply hasRun, H]. Qed.
Lemma progress t : prog s t <> [] -> somebody.
Proof. intros N. destruct (next t) as [S|[[I _]|(l & v & _ & OL & _)]]; [exact S|congruence|eapply hasAny, OL]. Qed.
End Progress.

(** ** And everybody can finish *)
Definition wt (a : act) : nat := match a with Pick _ => 2 | Ask _ _ => 3 | _ => 1 end.
Definition wts (p : list act) : nat := list_sum (map wt p).
Fixpoint total (n : nat) (f : nat -> list act) : nat := match n with 0%nat => wts (f 0%nat) | S m => (wts (f (S m)) + total m f)%nat end.
Lemma total_ext n f g : (forall t, (t <= n)%nat -> f t = g t) -> total n f = total n g.
Proof. induction n as [|n IH]; intros E; cbn [total]; [now rewrite E|]. rewrite E, IH; auto. Qed.
Lemma total_upd n f t p : (t <= n)%nat -> (wts p < wts (f t))%nat -> (total n (fun u => if (u =? t)%nat then p else f u) < total n f)%nat.
Proof.
  induction n as [|n IH]; intros L K; cbn [total].
  - assert (t = 0%nat) as -> by lia. cbn. exact K.
  - destruct (Nat.eqb_spec (S n) t) as [E|E].
    + subst t. rewrite (total_ext n _ f); [lia|]. intros t T. rewrite (proj2 (Nat.eqb_neq t (S n))) by lia. reflexivity.
    + assert (H : (t <= n)%nat) by lia. specialize (IH H K). lia.
Qed.
Lemma exec_less kind n s t s' : inv kind n s -> exec kind t s = Some s' -> (total n (prog s') < total n (prog s))%nat.
Proof.
  intros (A & _) E. unfold exec in E. destruct (prog s t) as [|a p] eqn:P; [discriminate|].
  assert (L : (t <= n)%nat) by (destruct (Nat.le_gt_cases t n) as [L|L]; [exact L|rewrite (A t L) in P; discriminate]).
  assert (H : forall q, (wts q < wts (prog s t))%nat -> (total n (prog (setProg t q s)) < total n (prog s))%nat) by (intros q Q; apply total_upd; assumption).
  rewrite P in H. cbv zeta in E.
  assert (WC : forall b q, wts (b :: q) = (wt b + wts q)%nat) by reflexivity. assert (WN : wts [] = 0%nat) by reflexivity.
  destruct a as [l|l|f|f|d e|d e|d e].
  - destruct (own s l); [discriminate|]. injection E as <-. apply H. rewrite ?WC, ?WN; cbn [wt]; lia.
  - destruct (own s l) as [u|]; [|discriminate]. destruct (u =? t)%nat; [|discriminate]. injection E as <-. apply H. rewrite ?WC, ?WN; cbn [wt]; lia.
  - destruct (own s (Run f)); injection E as <-; apply H; rewrite ?WC, ?WN; cbn [wt]; lia.
  - destruct (own s (Run f)); [discriminate|]. injection E as <-. apply H. rewrite ?WC, ?WN; cbn [wt]; lia.
  - destruct (existsb _ _); [destruct (kind e)|]; injection E as <-; apply H; rewrite ?WC, ?WN; cbn [wt]; lia.
  - injection E as <-. destruct (kind e); apply H; rewrite ?WC, ?WN; cbn [wt]; lia.
  - injection E as <-. apply H. rewrite ?WC, ?WN; cbn [wt]; lia.
Qed.

Lemma all_idle_dec n (f : nat -> list act) : (forall t, (n < t)%nat -> f t = []) -> (forall t, f t = []) \/ exists t, f t <> [].
Proof.
  intros A. assert (H : forall m, (forall t, (t <= m)%nat -> f t = []) \/ exists t, f t <> []).
  { induction m as [|m [IH|IH]].
    - destruct (f 0%nat) eqn:E; [left; intros t T; replace t with 0%nat by lia; exact E|right; exists 0%nat; congruence].
    - destruct (f (S m)) eqn:E; [left|right; exists (S m); congruence]. intros t T. destruct (Nat.eq_dec t (S m)) as [->|N]; [exact E|apply IH; lia].
    - right; exact IH. }
  destruct (H n) as [X|X]; [left|right; exact X]. intros t. destruct (Nat.le_gt_cases t n); auto.
Qed.

Lemma finish kind n : forall k s, (total n (prog s) <= k)%nat -> inv kind n s -> exists s', goesOn kind s s' /\ forall t, prog s' t = [].
Proof.
  induction k as [|k IH]; intros s K I; pose proof I as (A & B & hs & O & W);
    (destruct (all_idle_dec n (prog s) A) as [X|[t X]]; [exists s; split; [apply go_none|exact X]|]);
    destruct (progress kind s hs O W t X) as (u & s1 & E); pose proof (exec_less kind n s u s1 I E) as L.
  - lia.
  - destruct (IH s1) as (s2 & G & F); [lia|eapply inv_exec; eauto|]. exists s2. split; [eapply go_act; eauto|exact F].
Qed.

(** ** A deadlock stays *)
Lemma deadlock_act kind s ts t s' : deadlock s ts -> exec kind t s = Some s' -> deadlock s' ts.
Proof.
  intros [N D] E. split; [exact N|].
  assert (T : ~ In t ts).
  { intros I. destruct (D t I) as (l & u & NE & OW & _). unfold needs in NE. unfold exec in E. destruct (prog s t) as [|[] p]; try tauto; subst l; rewrite OW in E; discriminate. }
  intros v V. destruct (D v V) as (l & u & NE & OW & U). exists l, u. assert (v <> t) as VT by congruence.
  assert (PV : prog s' v = prog s v).
  { unfold exec in E. destruct (prog s t) as [|a p]; [discriminate|]. cbv zeta in E.
    assert (Q : forall q, prog (setProg t q s) v = prog s v) by (intros q; cbn; rewrite (proj2 (Nat.eqb_neq v t)) by exact VT; reflexivity).
    destruct a as [k|k|f|f|d e|d e|d e]; repeat match type of E with context [match ?x with _ => _ end] => destruct x; try discriminate E end; injection E as <-; apply Q. }
  split; [unfold needs in *; rewrite PV; exact NE|]. split; [|exact U].
  assert (u <> t) as UT by congruence. clear - E OW UT.
  assert (Q : forall k o q, k <> l -> own (setOwn k o (setProg t q s)) l = Some u) by (intros k o q K; cbn; destruct (lock_eq l k); [congruence|exact OW]).
  unfold exec in E. destruct (prog s t) as [|a p]; [discriminate|]. cbv zeta in E. destruct a as [k|k|f|f|d e|d e|d e].
  - destruct (own s k) eqn:K; [discriminate|]. injection E as <-. apply Q. congruence.
  - destruct (own s k) as [w|] eqn:K; [|discriminate]. destruct (Nat.eqb_spec w t) as [->|]; [|discriminate]. injection E as <-. apply Q. congruence.
  - destruct (own s (Run f)) eqn:K; injection E as <-; [exact OW|]. apply Q. congruence.
  - destruct (own s (Run f)) eqn:K; [discriminate|]. injection E as <-. exact OW.
  - destruct (existsb _ _); [destruct (kind e)|]; injection E as <-; exact OW.
  - injection E as <-. destruct (kind e); exact OW.
  - injection E as <-. exact OW.
Qed.
Lemma deadlock_stays kind s s' ts : goesOn kind s s' -> deadlock s ts -> deadlock s' ts.
Proof. induction 1 as [|s t s1 s2 E G IH]; [auto|]. intros D. apply IH. eapply deadlock_act; eauto. Qed.
Lemma deadlock_busy s ts t : deadlock s ts -> In t ts -> prog s t <> [].
Proof. intros [_ D] I E. destruct (D t I) as (l & u & N & _). unfold needs in N. rewrite E in N. exact N. Qed.
