(** Proofs for C100 and C101. *)
From Verif Require Import Base ZMap RcpModel RcpSpec.

Lemma after_snoc h v : after (h ++ [v]) = note (after h) v.
Proof. unfold after. rewrite fold_left_app. reflexivity. Qed.
Lemma after_sorted h : msorted (after h).
Proof.
  induction h as [|v h IH] using rev_ind; [exact I|]. rewrite after_snoc. destruct v; cbn [note]; [apply msorted_mset, IH|apply sorted_mdel, IH].
Qed.
Lemma after_find h k : mfind k (after h) = None \/ exists x h1 h2, mfind k (after h) = Some x /\ number x = k /\ h = h1 ++ Comes x :: h2 /\
  forall y, number y = k -> ~ In (Comes y) h2 /\ ~ In (Goes y) h2.
Proof.
  induction h as [|v h IH] using rev_ind; [left; reflexivity|]. rewrite after_snoc. destruct v as [x|x]; cbn [note].
  - rewrite mfind_mset. destruct (Z.eqb_spec k (number x)) as [E|N].
    + right. exists x, h, []. repeat split; auto.
    + destruct IH as [IH|(y & h1 & h2 & F & NY & -> & L)]; [left; exact IH|right]. exists y, h1, (h2 ++ [Comes x]).
      split; [exact F|]. split; [exact NY|]. split; [now rewrite <- app_assoc|]. intros z Z. destruct (L z Z) as [A B]. split; intros X; apply in_app_iff in X as [X|[X|[]]]; auto.
      * injection X as ->. congruence.
      * discriminate.
  - rewrite mfind_mdel by apply after_sorted. destruct (Z.eqb_spec k (number x)) as [E|N]; [left; reflexivity|].
    destruct IH as [IH|(y & h1 & h2 & F & NY & -> & L)]; [left; exact IH|right]. exists y, h1, (h2 ++ [Goes x]).
    split; [exact F|]. split; [exact NY|]. split; [now rewrite <- app_assoc|]. intros z Z. destruct (L z Z) as [A B]. split; intros X; apply in_app_iff in X as [X|[X|[]]]; auto.
    * discriminate.
    * injection X as ->. congruence.
Qed.
Lemma after_last h1 x h2 : (forall y, number y = number x -> ~ In (Comes y) h2 /\ ~ In (Goes y) h2) -> mfind (number x) (after (h1 ++ Comes x :: h2)) = Some x.
Proof.
  induction h2 as [|v h2 IH] using rev_ind; intros L.
  - rewrite after_snoc. cbn [note]. apply mfind_mset_eq.
  - rewrite app_comm_cons, app_assoc, after_snoc.
    assert (L2 : forall y, number y = number x -> ~ In (Comes y) h2 /\ ~ In (Goes y) h2) by (intros y Y; destruct (L y Y) as [A B]; split; intros X; [apply A|apply B]; apply in_app_iff; auto).
    specialize (IH L2). destruct v as [y|y]; cbn [note].
    + rewrite mfind_mset_neq; [exact IH|]. intros E. destruct (L y (eq_sym E)) as [A _]. apply A, in_app_iff. right; left; reflexivity.
    + rewrite mfind_mdel_neq; [exact IH|]. intros E. destruct (L y (eq_sym E)) as [_ A]. apply A, in_app_iff. right; left; reflexivity.
Qed.
Lemma told_find h x : In x (told (after h)) <-> mfind (number x) (after h) = Some x.
Proof.
  unfold told. split.
  - intros I. apply in_map_iff in I as ([k y] & E & I). cbn in E. subst y.
    pose proof (In_mfind _ _ _ _ (after_sorted h) I) as F. destruct (after_find h k) as [N|(z & h1 & h2 & F2 & NZ & _)]; [congruence|].
    assert (z = x) by congruence. subst. congruence.
  - intros F. apply mfind_In in F. apply in_map_iff. exists (number x, x). auto.
Qed.
Lemma told_iff h x : In x (told (after h)) <->
  exists h1 h2, h = h1 ++ Comes x :: h2 /\ forall y, number y = number x -> ~ In (Comes y) h2 /\ ~ In (Goes y) h2.
Proof.
  rewrite told_find. split.
  - intros F. destruct (after_find h (number x)) as [N|(z & h1 & h2 & F2 & NZ & E & L)]; [congruence|]. assert (z = x) by congruence. subst z. eauto.
  - intros (h1 & h2 & -> & L). apply after_last, L.
Qed.

Lemma sorted_nodup {A} (m : zmap A) : forall lo, sorted_from lo m -> NoDup (map fst m).
Proof.
  induction m as [|[k v] t IH]; intros lo S; cbn; [constructor|]. destruct S as [_ S]. constructor; [|eapply IH, S].
  intros X. apply in_map_iff in X as ([k' v'] & E & X). cbn in E. subst. pose proof (sorted_lower _ _ _ _ S X). lia.
Qed.
Lemma told_nodup h : NoDup (told (after h)).
Proof.
  assert (E : map number (told (after h)) = map fst (after h)).
  { unfold told. rewrite map_map. apply map_ext_in. intros [k x] I. cbn. assert (In x (told (after h))) as T by (apply in_map_iff; exists (k, x); auto).
    pose proof (In_mfind _ _ _ _ (after_sorted h) I) as F. destruct (after_find h k) as [N|(z & h1 & h2 & F2 & NZ & _)]; [congruence|]. congruence. }
  apply (NoDup_map_inv number). rewrite E. exact (sorted_nodup _ _ (after_sorted h)).
Qed.

Lemma visits_once h : visits h -> forall h1 x h2, h = h1 ++ Comes x :: h2 -> ~ In (Goes x) h1.
Proof.
  induction 1 as [|h y V IH F|h y V IH T]; intros h1 x h2 E I.
  - destruct h1; discriminate.
  - destruct h2 as [|v h2] using rev_ind; [|clear IHh2; rewrite app_comm_cons, app_assoc in E; apply app_inj_tail in E as [E _]; exact (IH h1 x h2 E I)].
    apply app_inj_tail in E as [-> X]. injection X as ->.
    assert (G : forall h, visits h -> forall z, In (Goes z) h -> In (Comes z) h).
    { clear. induction 1 as [|h y V IH F|h y V IH T]; intros z I; [destruct I| |]; apply in_app_iff; apply in_app_iff in I as [I|[I|[]]]; auto; [discriminate|]. injection I as <-. left. apply T. }
    exact (F x (G h1 V x I) eq_refl).
  - destruct h2 as [|v h2] using rev_ind; [apply app_inj_tail in E as [_ X]; discriminate|].
    clear IHh2. rewrite app_comm_cons, app_assoc in E. apply app_inj_tail in E as [E _]. exact (IH h1 x h2 E I).
Qed.
Lemma told_there h x : visits h -> In x (told (after h)) -> there h x.
Proof.
  intros V T. apply told_iff in T as (h1 & h2 & E & L). split; [rewrite E; apply in_app_iff; right; left; reflexivity|].
  rewrite E. intros I. apply in_app_iff in I as [I|[I|I]]; [|discriminate|exact (proj2 (L x eq_refl) I)]. exact (visits_once h V h1 x h2 E I).
Qed.
Lemma visits_prefix h : visits h -> forall h1 h2, h = h1 ++ h2 -> visits h1.
Proof.
  induction 1 as [|h y V IH F|h y V IH T]; intros h1 h2 E.
  - destruct h1; [constructor|discriminate].
  - destruct h2 as [|v h2] using rev_ind; [rewrite app_nil_r in E; subst; constructor; auto|]. clear IHh2. rewrite app_assoc in E. apply app_inj_tail in E as [E _]. eauto.
  - destruct h2 as [|v h2] using rev_ind; [rewrite app_nil_r in E; subst; constructor; auto|]. clear IHh2. rewrite app_assoc in E. apply app_inj_tail in E as [E _]. eauto.
Qed.
Lemma there_told h x : visits h -> numbersDiffer h -> there h x -> In x (told (after h)).
Proof.
  intros V D [C G]. apply told_iff. apply in_split in C as (h1 & h2 & E). exists h1, h2. split; [exact E|]. intros y NY.
  (* [x] is there all along [h2] *)
  assert (T : forall p q, h2 = p ++ q -> there (h1 ++ Comes x :: p) x).
  { intros p q ->. split; [apply in_app_iff; right; left; reflexivity|]. intros I. apply G. rewrite E. apply in_app_iff in I as [I|[I|I]]; [|discriminate|]; apply in_app_iff; [auto|].
    right; right. apply in_app_iff; auto. }
  assert (K : forall p, p = Comes y \/ p = Goes y -> ~ In p h2).
  { intros v VY I. apply in_split in I as (p & q & ->).
    destruct VY as [-> | ->].
    - assert (TY : there (h1 ++ Comes x :: p ++ [Comes y]) y).
      { split; [apply in_app_iff; right; right; apply in_app_iff; right; left; reflexivity|]. intros I.
        assert (VP : visits (h1 ++ Comes x :: p ++ [Comes y])) by (eapply (visits_prefix h V _ q); rewrite E, <- app_assoc; cbn; now rewrite <- app_assoc).
        assert (I2 : In (Goes y) (h1 ++ Comes x :: p)).
        { replace (h1 ++ Comes x :: p ++ [Comes y]) with ((h1 ++ Comes x :: p) ++ [Comes y]) in I by (rewrite <- app_assoc; reflexivity). apply in_app_iff in I as [I|[I|[]]]; [exact I|discriminate]. }
        refine (visits_once _ VP (h1 ++ Comes x :: p) y [] _ I2). rewrite <- app_assoc. reflexivity. }
      assert (x = y).
      { apply (D (h1 ++ Comes x :: p ++ [Comes y]) q); auto; [rewrite E, <- app_assoc; cbn; now rewrite <- app_assoc|]. apply (T (p ++ [Comes y]) q). rewrite <- app_assoc. reflexivity. }
      subst y. assert (VP : visits ((h1 ++ Comes x :: p) ++ [Comes x])) by (eapply (visits_prefix h V _ q); rewrite E, <- !app_assoc; cbn; reflexivity).
      inversion VP as [X|h0 z V0 F X|h0 z V0 F X]; [destruct h1; discriminate| |].
      + apply app_inj_tail in X as [-> X]. injection X as ->. refine (F x _ eq_refl). apply in_app_iff. right. left. reflexivity.
      + apply app_inj_tail in X as [_ X]. discriminate.
    - assert (VP : visits ((h1 ++ Comes x :: p) ++ [Goes y])) by (eapply (visits_prefix h V _ q); rewrite E, <- !app_assoc; cbn; reflexivity).
      inversion VP as [X|h0 z V0 F X|h0 z V0 F X]; [destruct h1; discriminate|apply app_inj_tail in X as [_ X]; discriminate|].
      apply app_inj_tail in X as [-> X]. injection X as ->.
      assert (x = y) by (apply (D (h1 ++ Comes x :: p) (Goes y :: q)); auto; [rewrite E, <- app_assoc; reflexivity|apply (T p (Goes y :: q)); reflexivity]).
      subst y. apply G. rewrite E. apply in_app_iff. right; right. apply in_app_iff. right; left; reflexivity. }
  split; apply K; auto.
Qed.

(** *** Ports *)
Lemma listen_spec free : listenAt free 7 RTSP_PORT = find free serverPorts.
Proof. unfold serverPorts. cbn. repeat match goal with |- context [free ?p] => destruct (free p); [reflexivity|] end. reflexivity. Qed.
Lemma free_spec s taken p : freeAt s taken p = true <-> ~ In p taken /\ ~ In p (map snd s).
Proof.
  unfold freeAt. rewrite negb_true_iff. split.
  - intros E. rewrite <- not_true_iff_false, existsb_exists in E. split; intros I; apply E; exists p; (split; [apply in_app_iff; auto|apply Z.eqb_refl]).
  - intros [A B]. rewrite <- not_true_iff_false, existsb_exists. intros (q & I & E). apply Z.eqb_eq in E. subst q. apply in_app_iff in I as [I|I]; auto.
Qed.
Lemma alters_inv cs : NoDup (map snd (alters cs)) /\ forall x, In x (alters cs) -> In (snd x) serverPorts.
Proof.
  induction cs as [|c cs [N P]] using rev_ind; [split; [constructor|intros x []]|]. unfold alters in *. rewrite fold_left_app. cbn [fold_left]. set (s := fold_left alter cs []) in *.
  destruct c as [t taken|t]; cbn [alter].
  - rewrite listen_spec. destruct (find _ _) as [p|] eqn:F; [|auto]. apply find_some in F as [I F]. apply free_spec in F as [_ F]. split; [constructor; assumption|].
    intros x [<-|X]; auto.
  - split; [|intros x X; apply filter_In in X as [X _]; auto]. clear P. induction s as [|x s IH]; cbn; [constructor|]. inversion N as [|a b A B]; subst.
    destruct (negb _); cbn; [constructor; [|apply IH, B]|apply IH, B]. intros X. apply A. apply in_map_iff in X as (y & E & Y). apply filter_In in Y as [Y _]. apply in_map_iff. eauto.
Qed.
