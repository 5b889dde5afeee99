(** Finite maps with integer keys kept in increasing key order: the observable
    behaviour of std::map<int, T> (find, operator[]=, erase, iteration order). *)
From Verif Require Import Base.

Definition zmap (A : Type) := list (Z * A).

Section ZMap.
Context {A : Type}.

Fixpoint mfind (k : Z) (m : zmap A) : option A :=
  match m with
  | [] => None
  | (k', v) :: t => if (k =? k')%Z then Some v else mfind k t
  end.

(** m[k] = v *)
Fixpoint mset (k : Z) (v : A) (m : zmap A) : zmap A :=
  match m with
  | [] => [(k, v)]
  | (k', v') :: t =>
      if (k =? k')%Z then (k, v) :: t
      else if (k <? k')%Z then (k, v) :: m
      else (k', v') :: mset k v t
  end.

(** m.erase(k) *)
Fixpoint mdel (k : Z) (m : zmap A) : zmap A :=
  match m with
  | [] => []
  | (k', v') :: t => if (k =? k')%Z then t else (k', v') :: mdel k t
  end.

Definition mkeys (m : zmap A) : list Z := map fst m.
Definition mmem (k : Z) (m : zmap A) : bool := match mfind k m with Some _ => true | None => false end.

(** Keys strictly increasing. *)
Fixpoint sorted_from (lo : option Z) (m : zmap A) : Prop :=
  match m with
  | [] => True
  | (k, _) :: t => match lo with Some l => (l < k)%Z | None => True end /\ sorted_from (Some k) t
  end.
Definition msorted (m : zmap A) := sorted_from None m.

Lemma sorted_weaken m : forall lo, sorted_from lo m -> msorted m.
Proof. destruct m as [|[k v] t]; cbn; intuition. Qed.

Lemma sorted_lower m : forall l k v, sorted_from (Some l) m -> In (k, v) m -> (l < k)%Z.
Proof.
  induction m as [|[k v] t IH]; intros l k0 v0 H HI; [contradiction|].
  destruct H as [H1 H2]. destruct HI as [E|HI].
  - inversion E; subst; exact H1.
  - specialize (IH k k0 v0 H2 HI). lia.
Qed.

Lemma mfind_In m k v : mfind k m = Some v -> In (k, v) m.
Proof.
  induction m as [|[k' v'] t IH]; cbn; [discriminate|].
  destruct (Z.eqb_spec k k') as [->|]; intros H; [inversion H; auto|auto].
Qed.

Lemma mfind_lower m : forall l k, sorted_from (Some l) m -> (k <= l)%Z -> mfind k m = None.
Proof.
  intros l k H Hk. destruct (mfind k m) as [v|] eqn:E; [|reflexivity].
  apply mfind_In in E. pose proof (sorted_lower m l k v H E). lia.
Qed.

Lemma In_mfind m : forall lo k v, sorted_from lo m -> In (k, v) m -> mfind k m = Some v.
Proof.
  induction m as [|[k' v'] t IH]; intros lo k v H HI; [contradiction|].
  destruct H as [H1 H2]. cbn. destruct HI as [E|HI].
  - inversion E; subst. rewrite Z.eqb_refl. reflexivity.
  - destruct (Z.eqb_spec k k') as [->|].
    + pose proof (sorted_lower t k' k' v H2 HI). lia.
    + eauto.
Qed.

Lemma mfind_mset_eq m k v : mfind k (mset k v m) = Some v.
Proof.
  induction m as [|[k' v'] t IH]; cbn; [rewrite Z.eqb_refl; reflexivity|].
  destruct (Z.eqb_spec k k'); cbn; [rewrite Z.eqb_refl; reflexivity|].
  destruct (k <? k')%Z; cbn; [rewrite Z.eqb_refl; reflexivity|].
  destruct (Z.eqb_spec k k'); [contradiction|exact IH].
Qed.

Lemma mfind_mset_neq m k k2 v : k2 <> k -> mfind k2 (mset k v m) = mfind k2 m.
Proof.
  intros Hn. induction m as [|[k' v'] t IH]; cbn.
  - destruct (Z.eqb_spec k2 k); [contradiction|reflexivity].
  - destruct (Z.eqb_spec k k') as [->|]; cbn.
    + destruct (Z.eqb_spec k2 k'); [contradiction|reflexivity].
    + destruct (k <? k')%Z; cbn.
      * destruct (Z.eqb_spec k2 k); [contradiction|reflexivity].
      * rewrite IH. reflexivity.
Qed.

Lemma mfind_mset m k k2 v : mfind k2 (mset k v m) = if (k2 =? k)%Z then Some v else mfind k2 m.
Proof.
  destruct (Z.eqb_spec k2 k) as [->|]; [apply mfind_mset_eq|apply mfind_mset_neq; auto].
Qed.

Lemma mfind_mdel_eq m : forall k lo, sorted_from lo m -> mfind k (mdel k m) = None.
Proof.
  induction m as [|[k' v'] t IH]; intros k lo H; cbn; [reflexivity|].
  destruct H as [H1 H2]. destruct (Z.eqb_spec k k') as [->|].
  - eapply mfind_lower; [exact H2|lia].
  - cbn. destruct (Z.eqb_spec k k'); [contradiction|eauto].
Qed.

Lemma mfind_mdel_neq m k k2 : k2 <> k -> mfind k2 (mdel k m) = mfind k2 m.
Proof.
  intros Hn. induction m as [|[k' v'] t IH]; cbn; [reflexivity|].
  destruct (Z.eqb_spec k k') as [->|]; cbn.
  - destruct (Z.eqb_spec k2 k'); [contradiction|reflexivity].
  - rewrite IH. reflexivity.
Qed.

Lemma mfind_mdel m k k2 : msorted m ->
  mfind k2 (mdel k m) = if (k2 =? k)%Z then None else mfind k2 m.
Proof.
  intros H. destruct (Z.eqb_spec k2 k) as [->|]; [eapply mfind_mdel_eq; exact H|apply mfind_mdel_neq; auto].
Qed.

Lemma sorted_mset m : forall lo k v, sorted_from lo m ->
  match lo with Some l => (l < k)%Z | None => True end -> sorted_from lo (mset k v m).
Proof.
  induction m as [|[k' v'] t IH]; intros lo k v H Hl; cbn.
  - auto.
  - destruct H as [H1 H2]. destruct (Z.eqb_spec k k') as [->|]; cbn; auto.
    destruct (Z.ltb_spec k k'); cbn; auto.
    split; auto. apply IH; auto. lia.
Qed.

Lemma msorted_mset m k v : msorted m -> msorted (mset k v m).
Proof. intros H. apply sorted_mset; auto. Qed.

Lemma sorted_drop m : forall l l', (l <= l')%Z -> sorted_from (Some l') m -> sorted_from (Some l) m.
Proof. destruct m as [|[k v] t]; cbn; intros; auto. intuition lia. Qed.

Lemma sorted_mdel m : forall lo k, sorted_from lo m -> sorted_from lo (mdel k m).
Proof.
  induction m as [|[k' v'] t IH]; intros lo k H; cbn; [exact I|].
  destruct H as [H1 H2]. destruct (Z.eqb_spec k k') as [->|].
  - destruct lo as [l|]; [|eapply sorted_weaken; exact H2].
    eapply sorted_drop; [|exact H2]. lia.
  - cbn; auto.
Qed.

Lemma msorted_mdel m k : msorted m -> msorted (mdel k m).
Proof. apply sorted_mdel. Qed.

Lemma mkeys_in m k : In k (mkeys m) <-> mfind k m <> None.
Proof.
  unfold mkeys. induction m as [|[k' v'] t IH]; cbn; [intuition|].
  destruct (Z.eqb_spec k k') as [->|]; [intuition discriminate|].
  rewrite IH. intuition.
Qed.

Lemma mkeys_nodup m : forall lo, sorted_from lo m -> NoDup (mkeys m).
Proof.
  induction m as [|[k v] t IH]; intros lo H; cbn; constructor.
  - destruct H as [_ H]. rewrite mkeys_in. rewrite (mfind_lower t k k H); [congruence|lia].
  - destruct H as [_ H]. eapply IH; exact H.
Qed.

Lemma mset_length_new m : forall k v, mfind k m = None -> length (mset k v m) = S (length m).
Proof.
  induction m as [|[k' v'] t IH]; intros k v H; cbn in *; [reflexivity|].
  destruct (Z.eqb_spec k k'); [discriminate|].
  destruct (k <? k')%Z; cbn; [reflexivity|]. rewrite IH; auto.
Qed.

Lemma mset_length_old m : forall lo k v, sorted_from lo m -> mfind k m <> None -> length (mset k v m) = length m.
Proof.
  induction m as [|[k' v'] t IH]; intros lo k v Hs H; cbn in *; [congruence|].
  destruct Hs as [H1 H2].
  destruct (Z.eqb_spec k k') as [->|]; [reflexivity|].
  destruct (Z.ltb_spec k k'); cbn.
  - exfalso. apply H. eapply mfind_lower; [exact H2|lia].
  - f_equal. eapply IH; eauto.
Qed.

Lemma mdel_length m : forall k, mfind k m <> None -> S (length (mdel k m)) = length m.
Proof.
  induction m as [|[k' v'] t IH]; intros k H; cbn in *; [congruence|].
  destruct (Z.eqb_spec k k'); [reflexivity|]. cbn. f_equal. auto.
Qed.

Lemma mdel_absent m : forall k, mfind k m = None -> mdel k m = m.
Proof.
  induction m as [|[k' v'] t IH]; intros k H; cbn in *; [reflexivity|].
  destruct (Z.eqb_spec k k'); [discriminate|]. rewrite IH; auto.
Qed.

(** Two ordered maps with the same look-ups are equal. *)
Lemma mext m1 : forall m2, msorted m1 -> msorted m2 -> (forall k, mfind k m1 = mfind k m2) -> m1 = m2.
Proof.
  induction m1 as [|[k1 v1] t1 IH]; intros [|[k2 v2] t2] H1 H2 HE.
  - reflexivity.
  - specialize (HE k2). cbn in HE. rewrite Z.eqb_refl in HE. discriminate.
  - specialize (HE k1). cbn in HE. rewrite Z.eqb_refl in HE. discriminate.
  - destruct H1 as [_ H1], H2 as [_ H2].
    assert (k1 = k2).
    { destruct (Z.lt_trichotomy k1 k2) as [H|[H|H]]; [|exact H|]; exfalso.
      - specialize (HE k1). cbn in HE. rewrite Z.eqb_refl in HE.
        destruct (Z.eqb_spec k1 k2); [lia|].
        rewrite (mfind_lower t2 k2 k1 H2) in HE by lia. discriminate.
      - specialize (HE k2). cbn in HE. rewrite Z.eqb_refl in HE.
        destruct (Z.eqb_spec k2 k1); [lia|].
        rewrite (mfind_lower t1 k1 k2 H1) in HE by lia. discriminate. }
    subst k2.
    assert (v1 = v2).
    { specialize (HE k1). cbn in HE. rewrite Z.eqb_refl in HE. congruence. }
    subst v2. f_equal. apply IH.
    + eapply sorted_weaken; exact H1.
    + eapply sorted_weaken; exact H2.
    + intros k. destruct (Z.eqb_spec k k1) as [->|Hk].
      * rewrite (mfind_lower t1 k1 k1 H1), (mfind_lower t2 k1 k1 H2) by lia. reflexivity.
      * specialize (HE k). cbn in HE. destruct (Z.eqb_spec k k1); [contradiction|exact HE].
Qed.
End ZMap.
Arguments mfind {A} k m.
