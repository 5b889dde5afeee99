From Coq Require Import Lia ZArith List Bool.
From Verif Require Import Base SgmModel SgmSpec.
Import ListNotations.
Local Open Scope list_scope.
Local Open Scope Z_scope.

Record inv (w : world) : Prop := mkInv {
  i_ids : NoDup (map sid (segs w));
  i_rng : forall s, In s (segs w) -> 0 <= sid s < 2 ^ 31;
  i_key : forall a b k, In a (segs w) -> In b (segs w) -> skey a = Some k -> skey b = Some k -> sid a = sid b;
  i_seg : forall f, In f (filts w) -> exists s, In s (segs w) /\ sid s = fid f /\ mine s = true /\ marked s = false /\ ours s = 1%nat /\ skey s = keyOf (fkey f);
  i_fid : NoDup (map fid (filts w));
  i_nam : NoDup (map fname (filts w)) /\ forall f, In f (filts w) -> (fname f < made w)%nat;
  i_our : forall s, In s (segs w) -> ours s <> 0%nat -> exists f, In f (filts w) /\ fid f = sid s;
  i_swp : forall s, In s (segs w) -> marked s = true -> (ours s + others s)%nat <> 0%nat;
  i_mrk : forall s, In s (segs w) -> marked s = true -> skey s = None }.
(** Nothing of ours is kept without a filter. *)
Definition owned (w : world) : Prop := forall s, In s (segs w) -> mine s = true -> marked s = false -> exists f, In f (filts w) /\ fid f = sid s.

Lemma in_onSeg i g l s' : In s' (onSeg i g l) <-> exists s, In s l /\ s' = (if sid s =? i then g s else s).
Proof. unfold onSeg. rewrite in_map_iff. split; intros (s & A & B); exists s; auto. Qed.
Lemma ids_onSeg i g l : (forall s, sid (g s) = sid s) -> map sid (onSeg i g l) = map sid l.
Proof. intros G. unfold onSeg. rewrite map_map. apply map_ext. intros s. destruct (sid s =? i); auto. Qed.
Lemma nodup_filter {A} (h : A -> Z) p l : NoDup (map h l) -> NoDup (map h (filter p l)).
Proof.
  induction l as [|x l IH]; cbn; intros N; [constructor|]. inversion N as [|? ? N1 N2]; subst. destruct (p x); cbn; [|auto].
  constructor; [|auto]. intros C. apply N1. apply in_map_iff in C. destruct C as (y & E & C). apply filter_In in C. apply in_map_iff. exists y. tauto.
Qed.
Lemma nodup_filter_n {A} (h : A -> nat) p l : NoDup (map h l) -> NoDup (map h (filter p l)).
Proof.
  induction l as [|x l IH]; cbn; intros N; [constructor|]. inversion N as [|? ? N1 N2]; subst. destruct (p x); cbn; [|auto].
  constructor; [|auto]. intros C. apply N1. apply in_map_iff in C. destruct C as (y & E & C). apply filter_In in C. apply in_map_iff. exists y. tauto.
Qed.
Lemma same_of {A B} (h : A -> B) l a b : NoDup (map h l) -> In a l -> In b l -> h a = h b -> a = b.
Proof.
  induction l as [|x l IH]; cbn; intros N IA IB E; [contradiction|]. inversion N as [|? ? N1 N2]; subst.
  destruct IA as [->|IA], IB as [->|IB]; auto; exfalso; apply N1; [rewrite E|rewrite <- E]; now apply in_map.
Qed.
Lemma kept_iff s : kept s = true <-> (marked s = true -> (ours s + others s)%nat <> 0%nat).
Proof. unfold kept. destruct (marked s), (ours s), (others s); cbn; split; intros; try discriminate; try lia; auto. Qed.

Lemma shmget_cases own k ans l : (fst (shmget own k ans l) = -1 /\ snd (shmget own k ans l) = l) \/
  exists i, ans = Some i /\ shmget own k ans l = (i, mkSeg i (keyOf k) own false 0 0 :: l) /\ 0 <= i < 2 ^ 31 /\ (forall s, In s l -> sid s <> i) /\
    (k <> 0 -> forall s, In s l -> skey s <> Some k).
Proof.
  destruct ans as [i|]; [|left; auto]. unfold shmget.
  destruct (negb (k =? 0) && existsb (hasKey k) l || existsb (fun s => sid s =? i) l || (i <? 0) || (2 ^ 31 <=? i)) eqn:E; [left; auto|right].
  apply orb_false_iff in E. destruct E as (E & E4). apply orb_false_iff in E. destruct E as (E & E3). apply orb_false_iff in E. destruct E as (E1 & E2).
  apply Z.ltb_ge in E3. apply Z.leb_gt in E4. exists i. split; [reflexivity|]. split; [reflexivity|]. split; [lia|]. split.
  - intros s I C. rewrite <- not_true_iff_false in E2. apply E2. apply existsb_exists. exists s. split; [exact I|now apply Z.eqb_eq].
  - intros K s I C. apply Z.eqb_neq in K. rewrite K in E1. cbn in E1. rewrite <- not_true_iff_false in E1. apply E1. apply existsb_exists. exists s. split; [exact I|].
    unfold hasKey. rewrite C. apply Z.eqb_refl.
Qed.

Lemma inv_new own k i w : inv w -> 0 <= i < 2 ^ 31 -> (forall s, In s (segs w) -> sid s <> i) -> (k <> 0 -> forall s, In s (segs w) -> skey s <> Some k) ->
  inv (mkW (mkSeg i (keyOf k) own false 0 0 :: segs w) (filts w) (made w)).
Proof.
  intros [A B C D E F G H M] R FR KR. assert (KN : forall z, keyOf k = Some z -> z = k /\ k <> 0).
  { intros z Q. unfold keyOf in Q. destruct (Z.eqb_spec k 0); [discriminate|]. split; [congruence|assumption]. }
  constructor; cbn [segs filts made]; auto.
  - cbn. constructor; [|exact A]. intros Q. apply in_map_iff in Q. destruct Q as (s & Q1 & Q2). exact (FR s Q2 Q1).
  - intros s [<-|I]; cbn; auto.
  - intros a b z [<-|IA] [<-|IB] KA KB; cbn in *; auto.
    + destruct (KN z KA) as (-> & N). exfalso. exact (KR N b IB KB).
    + destruct (KN z KB) as (-> & N). exfalso. exact (KR N a IA KA).
    + eauto.
  - intros f I. destruct (D f I) as (s & S1 & S2). exists s. split; [now right|exact S2].
  - intros s [<-|I]; cbn; [congruence|]. apply G; exact I.
  - intros s [<-|I]; cbn; [congruence|]. apply H; exact I.
  - intros s [<-|I]; cbn; [congruence|]. apply M; exact I.
Qed.

(** A change made by others. *)
Lemma inv_theirs i g w : inv w ->
  (forall s, sid (g s) = sid s /\ mine (g s) = mine s /\ ours (g s) = ours s) ->
  (forall s, mine s = true -> skey (g s) = skey s /\ marked (g s) = marked s) ->
  (forall s, skey (g s) = skey s \/ skey (g s) = None) ->
  (forall s, marked (g s) = true -> skey (g s) = None \/ marked s = true) ->
  inv (mkW (filter kept (onSeg i g (segs w))) (filts w) (made w)) /\ (owned w -> owned (mkW (filter kept (onSeg i g (segs w))) (filts w) (made w))).
Proof.
  intros [A B C D E F G H M] P Q K MK.
  assert (BACK : forall s', In s' (onSeg i g (segs w)) -> exists s, In s (segs w) /\ sid s' = sid s /\ mine s' = mine s /\ ours s' = ours s /\ (skey s' = skey s \/ skey s' = None) /\
                    (mine s = true -> skey s' = skey s /\ marked s' = marked s) /\ (marked s' = true -> skey s' = None)).
  { intros s' I. apply in_onSeg in I. destruct I as (s & I & ->). exists s. split; [exact I|]. destruct (sid s =? i).
    - destruct (P s) as (P1 & P2 & P3). repeat (split; [auto|]). intros X. destruct (MK s X) as [Y|Y]; [exact Y|]. destruct (K s) as [Z|Z]; [rewrite Z; auto|exact Z].
    - repeat (split; [auto|]). auto. }
  split.
  - constructor; cbn [segs filts made]; auto.
    + apply nodup_filter. rewrite ids_onSeg; [exact A|]. intros s. apply P.
    + intros s' I. apply filter_In in I. destruct (BACK s' (proj1 I)) as (s & I1 & -> & _). auto.
    + intros a b k IA IB KA KB. apply filter_In in IA. apply filter_In in IB. destruct (BACK a (proj1 IA)) as (x & X1 & -> & _ & _ & X4 & _). destruct (BACK b (proj1 IB)) as (y & Y1 & -> & _ & _ & Y4 & _).
      apply (C x y k X1 Y1); [destruct X4; congruence|destruct Y4; congruence].
    + intros f I. destruct (D f I) as (s & S1 & S2 & S3 & S4 & S5 & S6).
      exists (if sid s =? i then g s else s). split.
      * apply filter_In. split; [apply in_onSeg; exists s; auto|]. apply kept_iff. destruct (sid s =? i); [|congruence]. destruct (Q s S3) as (_ & ->). congruence.
      * destruct (sid s =? i); [|repeat (split; [assumption|]); assumption]. destruct (P s) as (-> & -> & ->). destruct (Q s S3) as (-> & ->). repeat (split; [assumption|]); assumption.
    + intros s' I N. apply filter_In in I. destruct (BACK s' (proj1 I)) as (s & I1 & -> & _ & X & _). apply G; [exact I1|congruence].
    + intros s' I X. apply filter_In in I. destruct I as (_ & I). exact (proj1 (kept_iff s') I X).
    + intros s' I X. apply filter_In in I. destruct (BACK s' (proj1 I)) as (s & _ & _ & _ & _ & _ & _ & Y). auto.
  - intros O s' I X Y. cbn [segs filts] in *. apply filter_In in I. destruct (BACK s' (proj1 I)) as (s & I1 & -> & Z1 & _ & _ & Z2 & _). rewrite Z1 in X. apply O; auto. destruct (Z2 X). congruence.
Qed.

Lemma asInt_id i : 0 <= i < 2 ^ 31 -> asInt (i mod 2 ^ 32) = i /\ i mod 2 ^ 32 = i /\ asInt i = i.
Proof.
  intros R. assert (i mod 2 ^ 32 = i) as -> by (apply Z.mod_small; lia). unfold asInt. destruct (Z.ltb_spec i (2 ^ 31)); [auto|lia].
Qed.

Lemma attach_new i x l : sid x = i -> (forall s, In s l -> sid s <> i) -> onSeg i attach (x :: l) = attach x :: l.
Proof.
  intros E N. unfold onSeg. cbn [map]. rewrite E, Z.eqb_refl. f_equal. induction l as [|y l IH]; cbn; [reflexivity|].
  destruct (Z.eqb_spec (sid y) i); [exfalso; eapply N; [left; reflexivity|assumption]|]. f_equal. apply IH. intros s I. apply N. now right.
Qed.

(** What createNew does. *)
Lemma create_cases key c ans ok w : (forall s, In s (segs w) -> 0 <= sid s < 2 ^ 31) ->
  let k := key mod 2 ^ 32 in
  (createNew key c ans ok w = (w, None)) \/
  exists i, c = true /\ ans = Some i /\ 0 <= i < 2 ^ 31 /\ (forall s, In s (segs w) -> sid s <> i) /\ (k <> 0 -> forall s, In s (segs w) -> skey s <> Some k) /\
    createNew key c ans ok w =
      (if ok then (mkW (mkSeg i (keyOf k) true false 1 0 :: segs w) (mkFil (made w) i k :: filts w) (S (made w)), Some (mkFil (made w) i k))
       else (mkW (mkSeg i (keyOf k) true false 0 0 :: segs w) (filts w) (made w), None)).
Proof.
  intros R k. unfold createNew. fold k. destruct c; cbn [negb]; [|left; reflexivity].
  destruct (shmget_cases true k ans (segs w)) as [(E1 & E2)|(i & -> & E & RI & FR & KR)].
  - left. destruct (shmget true k ans (segs w)) as [r l]. cbn [fst snd] in E1, E2. subst r l. cbv zeta.
    change (-1 mod 2 ^ 32) with 4294967295. change (4294967295 =? 2 ^ 64 - 1) with false. change (asInt 4294967295) with (-1). cbv iota.
    destruct (existsb (fun s => sid s =? -1) (segs w)) eqn:X.
    + apply existsb_exists in X. destruct X as (s & I & X). apply Z.eqb_eq in X. specialize (R s I). lia.
    + cbn. destruct w; reflexivity.
  - right. exists i. rewrite E. cbv zeta. destruct (asInt_id i RI) as (A1 & A2 & A3). rewrite A2, A3.
    destruct (Z.eqb_spec i (2 ^ 64 - 1)); [lia|]. cbn [existsb sid]. rewrite Z.eqb_refl. cbn [orb andb].
    split; [reflexivity|]. split; [reflexivity|]. split; [exact RI|]. split; [exact FR|]. split; [exact KR|]. destruct ok; [|reflexivity].
    rewrite attach_new; [reflexivity|reflexivity|exact FR].
Qed.

Lemma inv_filter i k w : inv w -> 0 <= i < 2 ^ 31 -> (forall s, In s (segs w) -> sid s <> i) -> (k <> 0 -> forall s, In s (segs w) -> skey s <> Some k) ->
  inv (mkW (mkSeg i (keyOf k) true false 1 0 :: segs w) (mkFil (made w) i k :: filts w) (S (made w))).
Proof.
  intros I0 R FR KR. pose proof (inv_new true k i w I0 R FR KR) as [A B C _ _ _ _ _ _]. destruct I0 as [_ _ _ D E F G H M]. cbn [segs filts made] in *.
  constructor; cbn [segs filts made].
  - exact A.
  - intros s [<-|I]; [exact R|apply B; now right].
  - intros a b z IA IB KA KB.
    assert (X : forall q, In q (mkSeg i (keyOf k) true false 1 0 :: segs w) -> exists q', In q' (mkSeg i (keyOf k) true false 0 0 :: segs w) /\ sid q' = sid q /\ skey q' = skey q).
    { intros q [<-|Q]; [eexists; split; [left; reflexivity|split; reflexivity]|exists q; split; [right; exact Q|split; reflexivity]]. }
    destruct (X a IA) as (a' & A1 & A2 & A3). destruct (X b IB) as (b' & B1 & B2 & B3). rewrite <- A2, <- B2. apply (C a' b' z); congruence.
  - intros f [<-|I]; [eexists; split; [left; reflexivity|]; cbn; auto 8|]. destruct (D f I) as (s & S1 & S2). exists s. split; [now right|exact S2].
  - cbn. constructor; [|exact E]. intros Q. apply in_map_iff in Q. destruct Q as (f & Q1 & Q2). destruct (D f Q2) as (s & S1 & S2 & _). apply (FR s S1). congruence.
  - destruct F as (F1 & F2). split.
    + cbn. constructor; [|exact F1]. intros Q. apply in_map_iff in Q. destruct Q as (f & Q1 & Q2). specialize (F2 f Q2). lia.
    + intros f [<-|I]; cbn; [lia|]. specialize (F2 f I). lia.
  - intros s [<-|I] N; [eexists; split; [left; reflexivity|reflexivity]|]. destruct (G s I N) as (f & F1 & F2). exists f. split; [now right|exact F2].
  - intros s [<-|I]; cbn; [congruence|]. apply H; exact I.
  - intros s [<-|I]; cbn; [congruence|]. apply M; exact I.
Qed.

Lemma create_inv key c ans ok w : inv w -> inv (fst (createNew key c ans ok w)) /\ (ok = true -> owned w -> owned (fst (createNew key c ans ok w))).
Proof.
  intros I. destruct (create_cases key c ans ok w (i_rng w I)) as [->|(i & _ & _ & R & FR & KR & ->)]; [auto|]. destruct ok; cbn [fst].
  - split; [now apply inv_filter|]. intros _ O s [<-|J] X Y; [eexists; split; [left; reflexivity|reflexivity]|]. destruct (O s J X Y) as (f & F1 & F2). exists f. split; [now right|exact F2].
  - split; [now apply inv_new|discriminate].
Qed.

(** What the destructor does. *)
Lemma destroy_segs f w : inv w -> In f (filts w) ->
  forall s', In s' (segs (destroy (fname f) w)) <->
    (In s' (segs w) /\ sid s' <> fid f) \/
    (exists s, In s (segs w) /\ sid s = fid f /\ others s <> 0%nat /\ s' = mkSeg (sid s) None true true 0 (others s)).
Proof.
  intros I J s'. unfold destroy. destruct (find _ (filts w)) as [g|] eqn:FD.
  2:{ exfalso. pose proof (find_none _ _ FD f J) as X. cbn in X. rewrite Nat.eqb_refl in X. discriminate. }
  apply find_some in FD. destruct FD as (FD1 & FD2). apply Nat.eqb_eq in FD2.
  assert (g = f) as -> by (eapply same_of; [exact (proj1 (i_nam w I))|assumption..]).
  destruct (i_seg w I f J) as (s & S1 & S2 & S3 & S4 & S5 & S6). pose proof (i_rng w I s S1) as R. rewrite S2 in R. destruct (asInt_id (fid f) R) as (_ & _ & ->). cbn [segs].
  rewrite filter_In, in_onSeg. split.
  - intros ((x & X1 & ->) & X2). apply filter_In in X1. destruct X1 as (X1 & X3). apply in_onSeg in X1. destruct X1 as (y & Y1 & ->).
    destruct (Z.eqb_spec (sid y) (fid f)) as [Q|Q].
    + assert (y = s) as -> by (eapply same_of; [exact (i_ids w I)|assumption..|congruence]). cbn [remove_ sid] in X2 |- *. destruct (Z.eqb_spec (sid s) (fid f)); [|contradiction].
      right. exists s. split; [exact S1|]. split; [exact S2|]. unfold detach, remove_ in X2 |- *. cbn in X2 |- *. rewrite S5 in X2 |- *. cbn in X2 |- *. rewrite S3.
      split; [|reflexivity]. intros Z. unfold kept in X2. cbn in X2. rewrite Z in X2. discriminate.
    + left. destruct (Z.eqb_spec (sid y) (fid f)); [contradiction|]. auto.
  - intros [(X & Y)|(x & X1 & X2 & X3 & ->)].
    + split; [|apply kept_iff; apply (i_swp w I); exact X]. exists s'. split.
      * apply filter_In. split; [|apply kept_iff; apply (i_swp w I); exact X]. apply in_onSeg. exists s'. split; [exact X|]. destruct (Z.eqb_spec (sid s') (fid f)); [contradiction|reflexivity].
      * destruct (Z.eqb_spec (sid s') (fid f)); [contradiction|reflexivity].
    + assert (x = s) as -> by (eapply same_of; [exact (i_ids w I)|assumption..|congruence]). split.
      * exists (remove_ s). split.
        -- apply filter_In. split; [apply in_onSeg; exists s; split; [exact S1|]; rewrite X2, Z.eqb_refl; reflexivity|]. apply kept_iff. cbn. lia.
        -- cbn [remove_ sid]. rewrite X2, Z.eqb_refl. unfold detach, remove_. cbn. rewrite S5, S3, X2. reflexivity.
      * apply kept_iff. cbn. lia.
Qed.
Lemma destroy_filts n w : filts (destroy n w) = filter (fun g => negb (fname g =? n)%nat) (filts w) /\ made (destroy n w) = made w.
Proof.
  unfold destroy. destruct (find _ (filts w)) as [g|] eqn:FD; [auto|]. split; [|reflexivity]. symmetry.
  pose proof (find_none _ _ FD) as X. clear FD. induction (filts w) as [|y l IH]; cbn; [reflexivity|]. rewrite (X y (or_introl eq_refl)). cbn. f_equal. apply IH. intros z Z. apply X. now right.
Qed.
Lemma destroy_ids n w : NoDup (map sid (segs w)) -> NoDup (map sid (segs (destroy n w))).
Proof.
  intros N. unfold destroy. destruct (find _ (filts w)); [|exact N]. cbn [segs]. apply nodup_filter. rewrite ids_onSeg by reflexivity. apply nodup_filter. rewrite ids_onSeg by reflexivity. exact N.
Qed.
Lemma destroy_inv n w : inv w -> inv (destroy n w) /\ (owned w -> owned (destroy n w)).
Proof.
  intros I. destruct (find (fun f => (fname f =? n)%nat) (filts w)) as [f|] eqn:FD; [|unfold destroy; rewrite FD; auto].
  apply find_some in FD. destruct FD as (J & E). apply Nat.eqb_eq in E. subst n.
  pose proof (destroy_segs f w I J) as DS. destruct (destroy_filts (fname f) w) as (DF & DM).
  assert (FI : forall g, In g (filts (destroy (fname f) w)) <-> In g (filts w) /\ fid g <> fid f).
  { intros g. rewrite DF, filter_In. split; intros (X & Y); (split; [exact X|]).
    - intros Z. assert (g = f) as -> by (eapply same_of; [exact (i_fid w I)|assumption..]). rewrite Nat.eqb_refl in Y. discriminate.
    - destruct (Nat.eqb_spec (fname g) (fname f)) as [Z|Z]; [|reflexivity]. exfalso. apply Y. f_equal. eapply same_of; [exact (proj1 (i_nam w I))|assumption..]. }
  split.
  - constructor.
    + apply destroy_ids. apply I.
    + intros s' X. apply DS in X. destruct X as [(X & _)|(s & X & _ & _ & ->)]; [|cbn]; apply (i_rng w I); exact X.
    + intros a b k A B KA KB. apply DS in A. apply DS in B. destruct A as [(A & _)|(s & _ & _ & _ & ->)]; [|discriminate]. destruct B as [(B & _)|(s & _ & _ & _ & ->)]; [|discriminate]. exact (i_key w I a b k A B KA KB).
    + intros g G. apply FI in G. destruct G as (G & N). destruct (i_seg w I g G) as (s & S1 & S2 & S3). exists s. split; [|auto]. apply DS. left. split; [exact S1|congruence].
    + rewrite DF. apply nodup_filter. apply I.
    + rewrite DM. split; [rewrite DF; apply nodup_filter_n; apply I|]. intros g G. apply FI in G. apply (proj2 (i_nam w I)). apply G.
    + intros s' X N. apply DS in X. destruct X as [(X & Y)|(s & _ & _ & _ & ->)]; [|cbn in N; congruence]. destruct (i_our w I s' X N) as (g & G1 & G2). exists g. split; [apply FI; split; [exact G1|congruence]|exact G2].
    + intros s' X M. apply DS in X. destruct X as [(X & _)|(s & _ & _ & O & ->)]; [apply (i_swp w I); assumption|cbn; lia].
    + intros s' X M. apply DS in X. destruct X as [(X & _)|(s & _ & _ & _ & ->)]; [apply (i_mrk w I); assumption|reflexivity].
  - intros O s' X A B. apply DS in X. destruct X as [(X & Y)|(s & _ & _ & _ & ->)]; [|discriminate]. destruct (O s' X A B) as (g & G1 & G2). exists g. split; [apply FI; split; [exact G1|congruence]|exact G2].
Qed.

Lemma kept_all w : inv w -> forall i g, (forall s, marked (g s) = marked s /\ ours (g s) = ours s /\ (others s <= others (g s))%nat) -> filter kept (onSeg i g (segs w)) = onSeg i g (segs w).
Proof.
  intros I i g P. assert (X : forall s', In s' (onSeg i g (segs w)) -> kept s' = true).
  { intros s' J. apply in_onSeg in J. destruct J as (s & J & ->). apply kept_iff. pose proof (i_swp w I s J). destruct (sid s =? i); [|auto]. destruct (P s) as (-> & -> & Q). intros M. specialize (H M). lia. }
  induction (onSeg i g (segs w)) as [|y l IH]; cbn; [reflexivity|]. rewrite X by (left; reflexivity). f_equal. apply IH. intros z Z. apply X. now right.
Qed.

Lemma step_inv o w : inv w -> inv (step o w) /\ (~ attachFailed o -> owned w -> owned (step o w)).
Proof.
  intros I. destruct o as [k c a ok|n|k a|i|i|i]; cbn [step].
  - destruct (create_inv k c a ok w I) as (A & B). split; [exact A|]. intros N. apply B. destruct ok; [reflexivity|]. exfalso. apply N. now exists k, c, a.
  - destruct (destroy_inv n w I) as (A & B). auto.
  - destruct (shmget_cases false (k mod 2 ^ 32) a (segs w)) as [(_ & ->)|(i & _ & -> & R & FR & KR)]; cbn [snd]; [destruct w; auto|].
    split; [now apply inv_new|]. intros _ O s [<-|J] X Y; [discriminate|]. exact (O s J X Y).
  - rewrite <- (kept_all w I i comes) by (intros s; cbn; auto with arith). destruct (inv_theirs i comes w I) as (A & B); cbn; auto.
  - destruct (inv_theirs i goes w I) as (A & B); cbn; auto.
  - destruct (inv_theirs i (fun s => if mine s then s else remove_ s) w I) as (A & B); auto; intros s; destruct (mine s) eqn:M; cbn; auto; discriminate.
Qed.

Lemma inv_nothing : inv nothing.
Proof. constructor; cbn; try contradiction; try constructor; try contradiction; constructor. Qed.
Lemma run_inv l : forall w, inv w -> inv (run l w) /\ (Forall (fun o => ~ attachFailed o) l -> owned w -> owned (run l w)).
Proof.
  induction l as [|o l IH]; intros w I; [auto|]. change (run (o :: l) w) with (run l (step o w)). destruct (step_inv o w I) as (A & B). destruct (IH _ A) as (C & D).
  split; [exact C|]. intros F O. inversion F; subst. auto.
Qed.
Lemma reachable_inv w : reachable w -> inv w.
Proof. intros (l & ->). apply (run_inv l nothing inv_nothing). Qed.
