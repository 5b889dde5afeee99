From Verif Require Import Base AudioBufIface AudioBufModel AudioBufSpec.

Section Proofs.
Context {B : Type}.

Lemma wrap a b m : a < m -> b <= m -> (a + b) mod m = if a + b <? m then a + b else a + b - m.
Proof.
  intros Ha Hb. destruct (Nat.ltb_spec (a + b) m) as [H|H].
  - apply Nat.mod_small; exact H.
  - replace (a + b) with ((a + b - m) + 1 * m) at 1 by lia.
    rewrite Nat.mod_add by lia. apply Nat.mod_small. lia.
Qed.

Lemma nth_error_firstn (l : list B) n j : nth_error (firstn n l) j = if j <? n then nth_error l j else None.
Proof.
  revert n j; induction l as [|x t IH]; intros [|n] [|j]; cbn; try reflexivity.
  - match goal with |- _ = if ?b then _ else _ => destruct b end; reflexivity.
  - rewrite IH. reflexivity.
Qed.

Lemma nth_error_skipn (l : list B) n j : nth_error (skipn n l) j = nth_error l (n + j).
Proof. revert n; induction l as [|x t IH]; intros [|n]; cbn; try reflexivity; [destruct j; reflexivity|apply IH]. Qed.

Lemma list_ext (l1 : list B) : forall l2, (forall j, nth_error l1 j = nth_error l2 j) -> l1 = l2.
Proof.
  induction l1 as [|x t IH]; intros [|y u] H; [reflexivity| | |].
  - specialize (H 0); discriminate.
  - specialize (H 0); discriminate.
  - f_equal; [specialize (H 0); cbn in H; congruence|]. apply IH. intros j. apply (H (S j)).
Qed.

Lemma memcpy_len (dst : list B) d src so n r : memcpy dst d src so n = Some r -> length r = length dst.
Proof.
  unfold memcpy. destruct (_ && _) eqn:E; [|discriminate]. intros H; inversion H; subst; clear H.
  apply andb_true_iff in E. destruct E as [E1 E2]. apply Nat.leb_le in E1, E2.
  rewrite !app_length, !firstn_length, !skipn_length. lia.
Qed.

Lemma memcpy_nth (dst : list B) d src so n r j : memcpy dst d src so n = Some r ->
  nth_error r j = if (d <=? j) && (j <? d + n) then nth_error src (so + (j - d)) else nth_error dst j.
Proof.
  unfold memcpy. destruct (_ && _) eqn:E; [|discriminate]. intros H; inversion H; subst; clear H.
  apply andb_true_iff in E. destruct E as [E1 E2]. apply Nat.leb_le in E1, E2.
  assert (Hl1 : length (firstn d dst) = d) by (rewrite firstn_length; lia).
  assert (Hl2 : length (firstn n (skipn so src)) = n) by (rewrite firstn_length, skipn_length; lia).
  destruct (Nat.leb_spec d j) as [Hdj|Hdj]; cbn [andb].
  - rewrite nth_error_app2 by lia. rewrite Hl1. destruct (Nat.ltb_spec j (d + n)) as [Hj|Hj].
    + rewrite nth_error_app1 by lia. rewrite nth_error_firstn, nth_error_skipn.
      destruct (Nat.ltb_spec (j - d) n); [reflexivity|lia].
    + rewrite nth_error_app2 by lia. rewrite nth_error_skipn, Hl2. f_equal. lia.
  - rewrite nth_error_app1 by lia. rewrite nth_error_firstn.
    destruct (Nat.ltb_spec j d); [reflexivity|lia].
Qed.

Lemma memcpy_ok (dst : list B) d src so n : so + n <= length src -> d + n <= length dst ->
  exists r, memcpy dst d src so n = Some r.
Proof.
  intros H1 H2. unfold memcpy. apply Nat.leb_le in H1, H2. rewrite H1, H2. eexists; reflexivity.
Qed.

(** One channel's array holds the bytes [q] from logical position [f] on. *)
Definition ring_ok (L : nat) (d : list B) (f : nat) (q : list B) : Prop :=
  length d = L /\ length q <= L /\
  forall k, k < length q -> nth_error d ((f + k) mod L) = nth_error q k.

(** The two branches of pushBack for one channel. *)
Definition chPush (L rm bytes : nat) (d b : list B) : option (list B) :=
  if rm + bytes <? L then memcpy d rm b 0 bytes
  else match memcpy d rm b 0 (L - rm) with
       | Some d' => memcpy d' 0 b (L - rm) (bytes - (L - rm))
       | None => None end.

Lemma ring_push L d f q b n : 0 < L -> ring_ok L d f q -> n <= length b -> length q + n <= L ->
  exists d', chPush L ((f + length q) mod L) n d b = Some d' /\ ring_ok L d' f (q ++ firstn n b).
Proof.
  intros HL (Hd & Hq & Hk) Hb Hfit. unfold chPush.
  set (rm := (f + length q) mod L).
  assert (Hrm : rm < L) by (apply Nat.mod_upper_bound; lia).
  set (f0 := f mod L).
  assert (Hf0 : f0 < L) by (apply Nat.mod_upper_bound; lia).
  assert (HM : forall k, (f + k) mod L = (f0 + k) mod L).
  { intros k. unfold f0. rewrite Nat.add_mod_idemp_l by lia. reflexivity. }
  assert (Hrm2 : rm = if f0 + length q <? L then f0 + length q else f0 + length q - L).
  { unfold rm. rewrite HM. apply wrap; lia. }
  clearbody rm f0.
  assert (Hpost : forall d', length d' = L ->
     (forall j, j < L -> nth_error d' j =
        if (rm <=? j) && (j <? rm + n) then nth_error b (j - rm)
        else if (L <=? rm + n) && (j <? rm + n - L) then nth_error b (L - rm + j) else nth_error d j) ->
     ring_ok L d' f (q ++ firstn n b)).
  { intros d' Hl Hn. split; [exact Hl|]. split; [rewrite app_length, firstn_length; lia|].
    intros k Hk'. rewrite app_length, firstn_length in Hk'.
    rewrite HM. rewrite wrap by lia.
    assert (Hjl : (if f0 + k <? L then f0 + k else f0 + k - L) < L)
      by (destruct (Nat.ltb_spec (f0 + k) L); lia).
    rewrite Hn by exact Hjl. clear Hn Hl.
    destruct (Nat.lt_ge_cases k (length q)) as [Hkq|Hkq].
    - rewrite nth_error_app1 by exact Hkq. rewrite <- (Hk k Hkq), HM, wrap by lia.
      destruct (Nat.ltb_spec (f0 + k) L); destruct (Nat.ltb_spec (f0 + length q) L);
      repeat match goal with
      | |- context [?a <=? ?b] => destruct (Nat.leb_spec a b)
      | |- context [?a <? ?b] => destruct (Nat.ltb_spec a b)
      end; cbn [andb]; try reflexivity; exfalso; lia.
    - rewrite nth_error_app2 by exact Hkq. rewrite nth_error_firstn.
      destruct (Nat.ltb_spec (k - length q) n) as [Hkn|Hkn]; [|lia].
      destruct (Nat.ltb_spec (f0 + k) L); destruct (Nat.ltb_spec (f0 + length q) L);
      repeat match goal with
      | |- context [?a <=? ?b] => destruct (Nat.leb_spec a b)
      | |- context [?a <? ?b] => destruct (Nat.ltb_spec a b)
      end; cbn [andb]; try (f_equal; lia); exfalso; lia. }
  destruct (Nat.ltb_spec (rm + n) L) as [Hw|Hw].
  - destruct (memcpy_ok d rm b 0 n) as (r & Hr); [lia|lia|].
    exists r. split; [exact Hr|]. apply Hpost; [rewrite (memcpy_len _ _ _ _ _ _ Hr); exact Hd|].
    intros j Hj. rewrite (memcpy_nth _ _ _ _ _ _ j Hr). cbn [plus].
    destruct ((rm <=? j) && (j <? rm + n)); [reflexivity|].
    destruct (Nat.leb_spec L (rm + n)); [lia|reflexivity].
  - destruct (memcpy_ok d rm b 0 (L - rm)) as (r & Hr); [lia|lia|]. rewrite Hr.
    pose proof (memcpy_len _ _ _ _ _ _ Hr) as Hlr.
    destruct (memcpy_ok r 0 b (L - rm) (n - (L - rm))) as (r2 & Hr2); [lia|lia|].
    exists r2. split; [exact Hr2|]. apply Hpost; [rewrite (memcpy_len _ _ _ _ _ _ Hr2); lia|].
    intros j Hj. rewrite (memcpy_nth _ _ _ _ _ _ j Hr2), (memcpy_nth _ _ _ _ _ _ j Hr).
    clear Hr Hr2 Hpost.
    repeat match goal with
      | |- context [?a <=? ?b] => destruct (Nat.leb_spec a b)
      | |- context [?a <? ?b] => destruct (Nat.ltb_spec a b)
      end; cbn [andb]; try reflexivity; try (f_equal; lia); exfalso; lia.
Qed.

(** The two branches of fillOutputBuffers for one channel. *)
Definition chPop (L fm bytes : nat) (o d : list B) : option (list B) :=
  if fm + bytes <? L then memcpy o 0 d fm bytes
  else match memcpy o 0 d fm (L - fm) with
       | Some o' => memcpy o' (L - fm) d 0 (bytes - (L - fm))
       | None => None end.

Lemma ring_pop L d f q o n : 0 < L -> ring_ok L d f q -> n <= length q -> n <= length o ->
  exists o', chPop L (f mod L) n o d = Some o' /\ length o' = length o /\
    firstn n o' = firstn n q /\ ring_ok L d (f + n) (skipn n q).
Proof.
  intros HL (Hd & Hq & Hk) Hn Ho. unfold chPop.
  set (f0 := f mod L). assert (Hf0 : f0 < L) by (apply Nat.mod_upper_bound; lia).
  assert (HM : forall k, (f + k) mod L = (f0 + k) mod L).
  { intros k. unfold f0. rewrite Nat.add_mod_idemp_l by lia. reflexivity. }
  clearbody f0.
  assert (Hring : ring_ok L d (f + n) (skipn n q)).
  { split; [exact Hd|]. rewrite skipn_length. split; [lia|]. intros k Hk'.
    rewrite nth_error_skipn, <- Hk by lia. f_equal. f_equal. lia. }
  assert (Hpost : forall o', (forall j, j < n -> nth_error o' j = nth_error d ((f0 + j) mod L)) ->
            firstn n o' = firstn n q).
  { intros o' H. apply list_ext. intros j. rewrite !nth_error_firstn.
    destruct (Nat.ltb_spec j n) as [Hj|Hj]; [|reflexivity].
    rewrite H by exact Hj. rewrite <- HM, Hk by lia. reflexivity. }
  destruct (Nat.ltb_spec (f0 + n) L) as [Hw|Hw].
  - destruct (memcpy_ok o 0 d f0 n) as (r & Hr); [lia|lia|].
    exists r. split; [exact Hr|]. split; [apply (memcpy_len _ _ _ _ _ _ Hr)|]. split; [|exact Hring].
    apply Hpost. intros j Hj. rewrite (memcpy_nth _ _ _ _ _ _ j Hr).
    rewrite wrap by lia.
    repeat match goal with
      | |- context [?a <=? ?b] => destruct (Nat.leb_spec a b)
      | |- context [?a <? ?b] => destruct (Nat.ltb_spec a b)
      end; cbn [andb]; try (f_equal; lia); exfalso; lia.
  - destruct (memcpy_ok o 0 d f0 (L - f0)) as (r & Hr); [lia|lia|]. rewrite Hr.
    pose proof (memcpy_len _ _ _ _ _ _ Hr) as Hlr.
    destruct (memcpy_ok r (L - f0) d 0 (n - (L - f0))) as (r2 & Hr2); [lia|lia|].
    exists r2. split; [exact Hr2|]. split; [rewrite (memcpy_len _ _ _ _ _ _ Hr2); exact Hlr|].
    split; [|exact Hring].
    apply Hpost. intros j Hj. rewrite (memcpy_nth _ _ _ _ _ _ j Hr2), (memcpy_nth _ _ _ _ _ _ j Hr).
    clear Hr Hr2 Hpost. rewrite wrap by lia.
    repeat match goal with
      | |- context [?a <=? ?b] => destruct (Nat.leb_spec a b)
      | |- context [?a <? ?b] => destruct (Nat.ltb_spec a b)
      end; cbn [andb]; try (f_equal; lia); exfalso; lia.
Qed.

End Proofs.
