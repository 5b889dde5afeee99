(** C105: every shared memory filter has a segment of its own, which goes with it. *)
From Coq Require Import Lia ZArith List Bool.
From Verif Require Import Base SgmModel SgmSpec SgmProofs.
Import ListNotations.
Local Open Scope list_scope.
Local Open Scope Z_scope.

(** At any time: the segment a filter tells the identifier of is there, was made by it and is not removed, and no two filters have the same. *)
Theorem C105_own_segment : forall w f, reachable w -> In f (filts w) ->
  (exists s, segmentOf w f s /\ mine s = true /\ marked s = false /\ ours s = 1%nat /\ forall s', segmentOf w f s' -> s' = s) /\
  forall g s, In g (filts w) -> segmentOf w f s -> segmentOf w g s -> g = f.
Proof.
  intros w f R J. pose proof (reachable_inv w R) as I. destruct (i_seg w I f J) as (s & S1 & S2 & S3 & S4 & S5 & _). split.
  - exists s. repeat (split; [first [assumption|split; assumption]|]). intros s' (T1 & T2). eapply same_of; [exact (i_ids w I)|assumption..|congruence].
  - intros g t G (_ & A) (_ & B). eapply same_of; [exact (i_fid w I)|assumption..|congruence].
Qed.

(** A filter made for a key that is found by another is refused, as is one for another codec; nothing changes. *)
Theorem C105_refused : forall w key c ans ok, reachable w -> key mod 2 ^ 32 <> 0 /\ inUse w key \/ c = false \/ ans = None -> createNew key c ans ok w = (w, None).
Proof.
  intros w key c ans ok R H. destruct (create_cases key c ans ok w (i_rng w (reachable_inv w R))) as [E|(i & -> & -> & _ & _ & KR & _)]; [exact E|].
  destruct H as [(K & s & S1 & S2)|[H|H]]; [|discriminate..]. exfalso. exact (KR K s S1 S2).
Qed.

(** Otherwise it is made: a new segment is added, found by the key, that nobody else is attached to. All others stay as they were. *)
Theorem C105_created : forall w key i, reachable w -> ~ inUse w key -> 0 <= i < 2 ^ 31 -> (forall s, In s (segs w) -> sid s <> i) ->
  exists w' f s, createNew key true (Some i) true w = (w', Some f) /\ segs w' = s :: segs w /\ filts w' = f :: filts w /\ segmentOf w' f s /\ others s = 0%nat /\
    fid f = i /\ (key mod 2 ^ 32 <> 0 -> skey s = Some (key mod 2 ^ 32)) /\ ~ In f (filts w).
Proof.
  intros w key i R N RI FR. pose proof (reachable_inv w R) as I.
  assert (X : createNew key true (Some i) true w <> (w, None)).
  { unfold createNew, shmget. cbn [negb].
    assert (E1 : negb (key mod 2 ^ 32 =? 0) && existsb (hasKey (key mod 2 ^ 32)) (segs w) = false).
    { apply andb_false_iff. right. apply not_true_iff_false. intros C. apply existsb_exists in C. destruct C as (s & C1 & C2). apply N. exists s. split; [exact C1|].
      unfold hasKey in C2. destruct (skey s) as [x|]; [|discriminate]. apply Z.eqb_eq in C2. congruence. }
    assert (E2 : existsb (fun s => sid s =? i) (segs w) = false).
    { apply not_true_iff_false. intros C. apply existsb_exists in C. destruct C as (s & C1 & C2). apply Z.eqb_eq in C2. exact (FR s C1 C2). }
    assert (E3 : (i <? 0) = false) by (apply Z.ltb_ge; lia). assert (E4 : (2 ^ 31 <=? i) = false) by (apply Z.leb_gt; lia).
    rewrite E1, E2, E3, E4. cbn [orb]. cbv zeta. destruct (asInt_id i RI) as (_ & -> & ->). destruct (Z.eqb_spec i (2 ^ 64 - 1)); [lia|]. cbn [existsb sid]. rewrite Z.eqb_refl. cbn [orb andb]. discriminate. }
  destruct (create_cases key true (Some i) true w (i_rng w I)) as [E|(j & _ & Q & _ & _ & _ & E)]; [contradiction|]. injection Q as <-. rewrite E.
  eexists. eexists. eexists. split; [reflexivity|]. split; [reflexivity|]. split; [reflexivity|]. split; [split; [left; reflexivity|reflexivity]|]. split; [reflexivity|]. split; [reflexivity|]. split.
  - intros K. cbn [skey]. unfold keyOf. apply Z.eqb_neq in K. now rewrite K.
  - intros C. pose proof (proj2 (i_nam w I) _ C) as L. cbn in L. lia.
Qed.

(** When a filter is destroyed nobody finds its segment by a key any more; it is gone, or stays only as long as others are attached. All other
    segments stay as they were, and all other filters. *)
Theorem C105_destroyed : forall w f, reachable w -> In f (filts w) ->
  let w' := destroy (fname f) w in
  (forall s, segmentOf w' f s -> skey s = None /\ marked s = true /\ ours s = 0%nat /\ exists s0, segmentOf w f s0 /\ others s = others s0 /\ others s0 <> 0%nat) /\
  (forall s, sid s <> fid f -> (In s (segs w') <-> In s (segs w))) /\ (forall g, In g (filts w') <-> In g (filts w) /\ g <> f).
Proof.
  intros w f R J w'. pose proof (reachable_inv w R) as I. pose proof (destroy_segs f w I J) as DS. fold w' in DS. split; [|split].
  - intros s (S1 & S2). apply DS in S1. destruct S1 as [(_ & N)|(s0 & A & B & C & ->)]; [contradiction|]. cbn. repeat (split; [reflexivity|]). exists s0. split; [split; assumption|auto].
  - intros s N. rewrite DS. split; [intros [(A & _)|(s0 & _ & B & _ & ->)]; [exact A|contradiction]|auto].
  - intros g. unfold w'. rewrite (proj1 (destroy_filts _ _)), filter_In. split; intros (A & B); (split; [exact A|]).
    + intros ->. rewrite Nat.eqb_refl in B. discriminate.
    + destruct (Nat.eqb_spec (fname g) (fname f)) as [Q|]; [|reflexivity]. exfalso. apply B. eapply same_of; [exact (proj1 (i_nam w I))|assumption..].
Qed.

(** If attaching never fails, every segment made here is that of a filter, or removed and only kept by others that are attached. *)
Theorem C105_nothing_left_partial : forall l s, Forall (fun o => ~ attachFailed o) l -> In s (segs (run l nothing)) -> mine s = true ->
  (exists f, In f (filts (run l nothing)) /\ segmentOf (run l nothing) f s) \/ (marked s = true /\ skey s = None /\ ours s = 0%nat /\ others s <> 0%nat).
Proof.
  intros l s F J M. destruct (run_inv l nothing inv_nothing) as (I & O). assert (OW : owned (run l nothing)) by (apply O; [exact F|intros ? []]).
  destruct (marked s) eqn:K.
  - right. split; [reflexivity|]. split; [now apply (i_mrk _ I)|]. assert (Z : ours s = 0%nat).
    { destruct (Nat.eq_dec (ours s) 0) as [|N]; [assumption|exfalso]. destruct (i_our _ I s J N) as (f & F1 & F2). destruct (i_seg _ I f F1) as (t & T1 & T2 & _ & T3 & _).
      assert (t = s) by (eapply same_of; [exact (i_ids _ I)|assumption..|congruence]). congruence. }
    split; [exact Z|]. pose proof (i_swp _ I s J K). lia.
  - left. destruct (OW s J M K) as (f & F1 & F2). exists f. split; [exact F1|split; [exact J|congruence]].
Qed.

(** If it does fail, the new segment stays, without a filter, and its key is refused from then on, whatever this process does. *)
Theorem C105_attach_failure_refuted : forall w key i, reachable w -> ~ inUse w key -> key mod 2 ^ 32 <> 0 -> 0 <= i < 2 ^ 31 -> (forall s, In s (segs w) -> sid s <> i) ->
  exists w', createNew key true (Some i) false w = (w', None) /\ filts w' = filts w /\ (forall f, In f (filts w') -> fid f <> i) /\
    forall l, Forall (fun o => exists k c a ok n, o = Create k c a ok \/ o = Destroy n) l -> inUse (run l w') key /\ forall c a ok, createNew key c a ok (run l w') = (run l w', None).
Proof.
  intros w key i R N K RI FR. pose proof (reachable_inv w R) as I.
  destruct (C105_created w key i R N RI FR) as (w1 & f1 & s1 & E1 & _).
  destruct (create_cases key true (Some i) true w (i_rng w I)) as [E|(j & _ & Q & _ & _ & KR & _)]; [congruence|]. injection Q as <-.
  destruct (create_cases key true (Some i) false w (i_rng w I)) as [E|(j & _ & Q & _ & _ & _ & E)].
  { exfalso. unfold createNew in E, E1. cbn [negb] in E, E1. destruct (shmget true (key mod 2 ^ 32) (Some i) (segs w)) as [r l] eqn:G. cbv zeta in E, E1.
    destruct (shmget_cases true (key mod 2 ^ 32) (Some i) (segs w)) as [(G1 & G2)|(j & Gj & G2 & _)]; rewrite G in *; cbn [fst snd] in *.
    - subst r l. change (-1 mod 2 ^ 32) with 4294967295 in E1. change (4294967295 =? 2 ^ 64 - 1) with false in E1. change (asInt 4294967295) with (-1) in E1. cbv iota in E1.
      destruct (existsb (fun s => sid s =? -1) (segs w)) eqn:X; [|discriminate]. apply existsb_exists in X. destruct X as (s & X1 & X2). apply Z.eqb_eq in X2. pose proof (i_rng w I s X1). lia.
    - injection Gj as <-. injection G2 as -> ->. destruct (asInt_id i RI) as (_ & A2 & A3). rewrite A2, A3 in E. destruct (Z.eqb_spec i (2 ^ 64 - 1)); [lia|]. rewrite andb_false_r in E.
      assert (X : mkSeg i (keyOf (key mod 2 ^ 32)) true false 0 0 :: segs w = segs w) by (inversion E as [E']; destruct w; cbn in *; congruence). apply (f_equal (@List.length seg)) in X. cbn in X. lia. }
  injection Q as <-. rewrite E. eexists. split; [reflexivity|]. split; [reflexivity|]. cbn [filts]. split.
  { intros f F. destruct (i_seg w I f F) as (s & S1 & S2 & _). rewrite <- S2. auto. }
  intros l FA.
  assert (I' : inv (mkW (mkSeg i (keyOf (key mod 2 ^ 32)) true false 0 0 :: segs w) (filts w) (made w))) by now apply inv_new.
  assert (STAY : forall l v, inv v -> Forall (fun o => exists k c a ok n, o = Create k c a ok \/ o = Destroy n) l -> In (mkSeg i (keyOf (key mod 2 ^ 32)) true false 0 0) (segs v) ->
                 inv (run l v) /\ In (mkSeg i (keyOf (key mod 2 ^ 32)) true false 0 0) (segs (run l v))).
  { clear. induction l as [|o l IH]; intros v V F J; [auto|]. inversion F as [|? ? F1 F2]; subst. change (run (o :: l) v) with (run l (step o v)). apply IH; [apply step_inv; exact V|exact F2|].
    destruct F1 as (k & c & a & ok & n & [-> | ->]); cbn [step].
    - destruct (create_cases k c a ok v (i_rng v V)) as [-> |(j & _ & _ & _ & _ & _ & ->)]; [exact J|]. destruct ok; cbn [fst segs]; right; exact J.
    - destruct (find (fun f => (fname f =? n)%nat) (filts v)) as [f|] eqn:FD; [|unfold destroy; rewrite FD; exact J].
      apply find_some in FD. destruct FD as (D1 & D2). apply Nat.eqb_eq in D2. subst n. apply (destroy_segs f v V D1). left. split; [exact J|]. cbn. intros C.
      destruct (i_seg v V f D1) as (t & T1 & T2 & _ & _ & T3 & _). assert (t = mkSeg i (keyOf (key mod 2 ^ 32)) true false 0 0) by (eapply same_of; [exact (i_ids v V)|assumption..|cbn; congruence]). subst t. discriminate. }
  destruct (STAY l _ I' FA (or_introl eq_refl)) as (IV & JV).
  assert (U : inUse (run l (mkW (mkSeg i (keyOf (key mod 2 ^ 32)) true false 0 0 :: segs w) (filts w) (made w))) key).
  { eexists. split; [exact JV|]. cbn [skey]. unfold keyOf. apply Z.eqb_neq in K. now rewrite K. }
  split; [exact U|]. intros c a ok. destruct (create_cases key c a ok _ (i_rng _ IV)) as [X|(j & _ & _ & _ & _ & KR' & _)]; [exact X|]. exfalso. destruct U as (s & U1 & U2). exact (KR' K s U1 U2).
Qed.

(** Keys are told apart by 32 bits only: one is refused because of another that is equal modulo 2^32 ... *)
Theorem C105_far_keys_refuted : forall w k f, reachable w -> In f (filts w) -> k mod 2 ^ 32 = fkey f -> fkey f <> 0 -> forall n c a ok, createNew (k + n * 2 ^ 32) c a ok w = (w, None).
Proof.
  intros w k f R J E N n c a ok. apply C105_refused; [exact R|]. left. rewrite Z.mod_add by lia. split; [congruence|].
  destruct (i_seg w (reachable_inv w R) f J) as (s & S1 & _ & _ & _ & _ & S2). exists s. split; [exact S1|]. rewrite Z.mod_add by lia. rewrite S2, E. unfold keyOf. apply Z.eqb_neq in N. now rewrite N.
Qed.
(** ... and key 0, or a multiple of 2^32, is never refused: two filters tell the same key. *)
Theorem C105_key_zero_refuted : exists w f g, reachable w /\ In f (filts w) /\ In g (filts w) /\ f <> g /\ fkey f = fkey g.
Proof.
  eexists. exists (mkFil 0 7 0), (mkFil 1 8 0). split; [exists [Create 0 true (Some 7) true; Create 0 true (Some 8) true]; reflexivity|]. cbn. split; [auto|]. split; [auto|]. split; [discriminate|reflexivity].
Qed.
(** Any other key belongs to one filter. *)
Theorem C105_keys_differ_partial : forall w f g, reachable w -> In f (filts w) -> In g (filts w) -> fkey f = fkey g -> fkey f <> 0 -> f = g.
Proof.
  intros w f g R F G E N. pose proof (reachable_inv w R) as I. destruct (i_seg w I f F) as (s & S1 & S2 & _ & _ & _ & S3). destruct (i_seg w I g G) as (t & T1 & T2 & _ & _ & _ & T3).
  assert (K : keyOf (fkey f) = Some (fkey f)) by (unfold keyOf; apply Z.eqb_neq in N; now rewrite N).
  eapply same_of; [exact (i_fid w I)|assumption..|]. rewrite <- S2, <- T2. apply (i_key w I s t (fkey f)); congruence.
Qed.

(** Two filters, a reading process attached to the first and a segment of its own; the first is destroyed, its key used again. *)
Definition busy : list op := [TheirGet 5 (Some 2); Create 1985 true (Some 7) true; TheirAttach 7; Create 5 true (Some 9) true; Create 6 true (Some 8) true].
Example busy_run : run busy nothing = mkW [mkSeg 8 (Some 6) true false 1 0; mkSeg 7 (Some 1985) true false 1 1; mkSeg 2 (Some 5) false false 0 0] [mkFil 1 8 6; mkFil 0 7 1985] 2.
Proof. reflexivity. Qed.
Example busy_refused : inUse (run busy nothing) 5 /\ 5 mod 2 ^ 32 <> 0.
Proof. split; [|discriminate]. exists (mkSeg 2 (Some 5) false false 0 0). cbn. auto. Qed.
Example busy_free : ~ inUse (run busy nothing) 77 /\ forall s, In s (segs (run busy nothing)) -> sid s <> 3.
Proof. split; [intros (s & [<-|[<-|[<-|[]]]] & H); discriminate H|]. intros s [<-|[<-|[<-|[]]]]; discriminate. Qed.
Example busy_attached : Forall (fun o => ~ attachFailed o) busy.
Proof. repeat constructor; intros (k & c & a & H); discriminate H. Qed.
Example busy_destroyed : segs (run (busy ++ [Destroy 0; Create 1985 true (Some 3) true]) nothing) =
  [mkSeg 3 (Some 1985) true false 1 0; mkSeg 8 (Some 6) true false 1 0; mkSeg 7 None true true 0 1; mkSeg 2 (Some 5) false false 0 0].
Proof. reflexivity. Qed.
Example busy_over : segs (run (busy ++ [Destroy 0; Destroy 1; TheirDetach 7; TheirRemove 2]) nothing) = [].
Proof. reflexivity. Qed.

Print Assumptions C105_own_segment.
Print Assumptions C105_refused.
Print Assumptions C105_created.
Print Assumptions C105_destroyed.
Print Assumptions C105_nothing_left_partial.
Print Assumptions C105_attach_failure_refuted.
Print Assumptions C105_far_keys_refuted.
Print Assumptions C105_key_zero_refuted.
Print Assumptions C105_keys_differ_partial.
