(** C104: the demuxer neither leaks, nor frees twice, nor uses after freeing, the memory of its packets. *)
From Verif Require Import Base DmmModel DmmSpec DmmProofs.
Local Open Scope nat_scope.

(** Whatever is read, converted, connected or opened: no block is used or freed that is not there. *)
Theorem C104_no_bad_memory : forall hs, history hs newDemuxer <> BadMemory.
Proof. intros hs E. destruct (history_shape hs _ (sNone false false 0)) as [(d & X & _)|(X & _)]; unfold newDemuxer in E; congruence. Qed.

(** At any time the blocks there are, are those it points to. *)
Theorem C104_no_leak : forall hs d, history hs newDemuxer = Fine d -> tidy d.
Proof.
  intros hs d E. destruct (history_shape hs _ (sNone false false 0)) as [(e & X & S)|(X & _)]; unfold newDemuxer in E; [|congruence].
  replace d with e by congruence. now apply shape_tidy.
Qed.

(** Destroying it, or giving it another source, leaves none of them. *)
Theorem C104_nothing_left : forall hs d, history hs newDemuxer = Fine d ->
  (exists d', reset d = Fine d' /\ live d' = []) /\ forall o, exists d', setURI o d = Fine d' /\ live d' = [].
Proof.
  intros hs d E. destruct (history_shape hs _ (sNone false false 0)) as [(e & X & S)|(X & _)]; unfold newDemuxer in E; [|congruence].
  replace d with e by congruence. destruct (reset_shape e S) as (z & R & L & _).
  split; [eauto|]. intros o. unfold setURI. rewrite R. eauto.
Qed.

(** A packet's memory goes with its last unit, with the only one if it is not split, and at once if its output is not connected. *)
Theorem C104_last_unit_releases : forall hs d r c l d', history hs newDemuxer = Fine d -> ctx d = true ->
  l = true \/ c = false \/ framing d' = false -> round r c l d = Fine d' -> live d' = [].
Proof.
  intros hs d r c l d' E C LC R. destruct (history_shape hs _ (sNone false false 0)) as [(e & X & S)|(X & _)]; unfold newDemuxer in E; [|congruence].
  assert (e = d) by congruence; subst e.
  unfold round in R. rewrite C in R; cbn in R. pose proof (fetch_shape r d S) as Q.
  destruct (fetch r d) as [e|x] eqn:F.
  - destruct Q as (S' & _). destruct c; cbn in R.
    + destruct (use_shape (l || negb (framing e)) e S') as [(z & Z & _ & L)|(Z & _)]; [|congruence].
      assert (z = d') by congruence; subst z. apply L.
      destruct LC as [->|[?|FR]]; [reflexivity|discriminate|].
      rewrite <- (use_framing _ _ _ R), FR. apply Bool.orb_true_r.
    + destruct (letGo_shape e S') as (z & Z & L & _). congruence.
  - destruct S; unfold fetch in F; cbn in F; try discriminate.
    destruct r as [|e k f' v]; [injection F as <-; injection R as <-; reflexivity|].
    destruct e, k, f', v; unfold release in F; cbn in F; rewrite ?Nat.eqb_refl in F; cbn in F; try discriminate;
      injection F as <-; injection R as <-; cbn; try destruct (Nat.eq_dec n n); congruence.
Qed.

(** The only way a history goes wrong is a packet without data on a split stream. *)
Theorem C104_safe_partial : forall hs, ~ Exists emptySplit hs -> exists d, history hs newDemuxer = Fine d.
Proof. intros hs N. destruct (history_shape hs _ (sNone false false 0)) as [(d & X & _)|(_ & X)]; [eauto|contradiction]. Qed.

(** And that one does: whatever went before, once a source is open and no packet is held, it reads at NULL. *)
Theorem C104_empty_packet_refuted : forall hs d l, history hs newDemuxer = Fine d -> ctx d = true -> pkt d = None ->
  history (hs ++ [Round (Packet true true true Direct) true l]) newDemuxer = NullRead.
Proof.
  intros hs d l E C P.
  assert (A : forall hs d0 t, history hs d0 = Fine d -> history (hs ++ t) d0 = history t d).
  { clear E. intros gs; induction gs as [|h r IH]; cbn; intros d0 t E; [congruence|]. destruct (happen h d0); [auto|discriminate..]. }
  rewrite (A _ _ _ E). cbn. unfold round, fetch. rewrite C, P. reflexivity.
Qed.

(** A converted packet of two units, one of an output not connected, another source in the middle of a third. *)
Definition mixed : list happening :=
  [Uri true; Round (Packet false true true NewBlock) true false; Round Nothing true true;
   Round (Packet false true false Direct) false true; Round (Packet false false true Direct) true true;
   Round (Packet false true true NewBlock) true false].
Example mixed_fine : history mixed newDemuxer = Fine (mkDm true (Some 4) (Some 5) true [5; 4] 6).
Proof. reflexivity. Qed.
Example mixed_not_empty : ~ Exists emptySplit mixed.
Proof. intros H. repeat (inversion H as [? ? Q|? ? Q]; subst; clear H; [destruct Q as (? & Q); discriminate Q|rename Q into H]). inversion H. Qed.
Example mixed_reset : exists d', setURI true (mkDm true (Some 4) (Some 5) true [5; 4] 6) = Fine d' /\ live d' = [].
Proof. eexists; split; reflexivity. Qed.
Example empty_reachable : exists d, history [Uri true] newDemuxer = Fine d /\ ctx d = true /\ pkt d = None.
Proof. eexists; repeat split; reflexivity. Qed.

Print Assumptions C104_no_bad_memory.
Print Assumptions C104_no_leak.
Print Assumptions C104_nothing_left.
Print Assumptions C104_last_unit_releases.
Print Assumptions C104_safe_partial.
Print Assumptions C104_empty_packet_refuted.
