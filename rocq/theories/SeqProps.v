(** C62: frames are numbered without gaps and carry the time of their origin, and whoever can go on is woken. *)
From Verif Require Import Base ZMap SeqModel SeqSpec SeqProofs.
Local Open Scope list_scope.
Local Open Scope Z_scope.

Lemma built_inv s : built s -> inv s.
Proof. intros [W M]. unfold inv. rewrite W. split; [exact Logic.I|]. intros K. cbn. split; [auto|lia]. Qed.

(** Whatever happened before and whatever is connected and disconnected besides: from its connection on, the frames
    that leave through a writer carry the stamps expected: a source or a mixer numbers them 0, 1, 2, ... with the time
    they were made, a splitter passes on the stamp of its origin frame, any other filter those it wrote itself. *)
Theorem C62_stamps_partial : forall s es1 i rs es2, built s -> snd (srun es1 s) = true ->
  let m := fst (fst (srun es1 s)) in
  Z.of_nat (length (writers m)) < maxWriters m -> mfind i (writers m) = None ->
  Forall (honest (skind s)) es2 -> Forall (keeps i) es2 ->
  let after := srun (SConnect i true rs :: es2) m in
  snd after = true -> stampsOf i (snd (fst after)) = expected (skind s) (srole s) i es2.
Proof.
  intros s es1 i rs es2 B B1 m L F Hh K after E.
  assert (I : inv m) by (apply inv_run, built_inv, B).
  assert (FX : skind m = skind s /\ srole m = srole s).
  { clear - s. unfold m. clear. revert s. induction es1 as [|e es1 IH]; intros s; [split; reflexivity|]. cbn [srun]. destruct (sstep e s) as [[s' p]|] eqn:E; [|split; reflexivity].
    destruct (sstep_fixed _ _ _ _ E) as (A & B & _). specialize (IH s'). destruct (srun es1 s') as [[s2 ps] b]. cbn [fst snd] in *. rewrite <- A, <- B. exact IH. }
  destruct FX as [FK FR].
  assert (ST : sstep (SConnect i true rs) m = Some (setWriters m (mset i (mkWr 0 rs) (writers m)), mkPr [] [])).
  { cbn [sstep]. destruct (Z.leb_spec (maxWriters m) (Z.of_nat (length (writers m)))); [lia|]. unfold mmem. rewrite F. reflexivity. }
  pose proof (inv_step _ _ _ _ I ST) as I'. unfold after in *. cbn [srun] in *. rewrite ST in *. set (m' := setWriters m (mset i (mkWr 0 rs) (writers m))) in *.
  pose proof (run_writer es2 m' i (mkWr 0 rs) I') as R. destruct (srun es2 m') as [[s2 ps] b]. cbn [fst snd] in *.
  rewrite stampsOf_cons. cbn [handed List.filter map app].
  assert (KM : skind m' = skind s /\ srole m' = srole s) by (split; assumption). destruct KM as [KM RM]. rewrite KM, RM in R. rewrite R; try assumption; try reflexivity.
  unfold m'. cbn [setWriters writers]. apply mfind_mset_eq.
Qed.
(** So the numbers of a source or a mixer are distinct and have no gaps for 2^64 frames: a reader that misses a
    number knows that a frame was lost. *)
Theorem C62_no_gaps : forall ts k, (k < length ts)%nat -> nth_error (map num (numbered 0 ts)) k = Some (Z.of_nat k mod 2 ^ 64).
Proof.
  assert (G : forall ts n k, (k < length ts)%nat -> nth_error (map num (numbered n ts)) k = Some ((n + Z.of_nat k) mod 2 ^ 64)).
  { induction ts as [|t ts IH]; intros n k H; [cbn in H; lia|]. cbn [numbered map]. destruct k as [|k]; [cbn [nth_error num]; do 2 f_equal; lia|].
    cbn [nth_error]. rewrite IH by (cbn in H; lia). do 2 f_equal. lia. }
  intros ts k H. rewrite G by exact H. reflexivity.
Qed.

(** The filters that are run next are exactly the readers of the queues that got a frame, and the filter itself if it
    is periodic. *)
Theorem C62_wakes : forall s now input src w s' p x, sstep (SRound now input src w) s = Some (s', p) ->
  (In x (jobs p) <->
   (runs (srole s) input = true /\ exists i wr, In (i, wr) (writers s) /\ marked w i = true /\ In x (readers wr)) \/
   (periodic s = true /\ x = sid s)).
Proof.
  intros s now input src w s' p x H.
  assert (SELF : forall q, In x (jobs (withSelf s q)) <-> In x (jobs q) \/ (periodic s = true /\ x = sid s)).
  { intros q. unfold withSelf. cbn [jobs]. destruct (periodic s); [rewrite in_app_iff; cbn; intuition|intuition congruence]. }
  destruct (round_cases _ _ _ _ _ _ _ H) as [(R & p0 & D & ->)|(-> & -> & C)]; rewrite SELF.
  - pose proof (deliver_jobs (skind s) now src w x (writers s) true []) as J. rewrite D in J. cbn [snd] in J. rewrite J, R. cbn [In]. intuition.
  - cbn [jobs In]. split; [intuition|]. intros [[R (i & wr & I & _)]|X]; [|auto]. destruct C as [C|C]; [congruence|rewrite C in I; destruct I].
Qed.
(** A frame leaves through a writer at a round exactly if the work is done and marks it, and then once. *)
Theorem C62_handed_on : forall s es now input src w s' p i, built s ->
  sstep (SRound now input src w) (fst (fst (srun es s))) = Some (s', p) ->
  let m := fst (fst (srun es s)) in
  length (List.filter (fun x => fst x =? i) (handed p)) =
    if runs (srole m) input && marked w i && mmem i (writers m) then 1%nat else 0%nat.
Proof.
  intros s es now input src w s' p i B H m. assert (I : inv m) by (apply inv_run, built_inv, B). fold m in H.
  destruct (round_cases _ _ _ _ _ _ _ H) as [(R & p0 & D & ->)|(-> & -> & C)]; cbn [withSelf handed].
  - rewrite R. cbn [andb]. destruct (mfind i (writers m)) as [wr|] eqn:F; unfold mmem; rewrite F.
    + destruct (deliver_find (skind m) now src w i (writers m) true [] wr (proj1 I) F) as (f & _ & X). rewrite D in X. destruct X as [_ X]. rewrite X.
      rewrite andb_true_r. destruct (marked w i); reflexivity.
    + rewrite andb_false_r. assert (N : forall ws first js, mfind i ws = None -> List.filter (fun x => fst x =? i) (handed (snd (deliverAll (skind m) now src w first ws js))) = []).
      { induction ws as [|[j v] r IH]; intros first js N; [reflexivity|]. cbn [mfind] in N. destruct (Z.eqb_spec i j) as [|NE]; [discriminate|]. cbn [deliverAll].
        destruct (stamped _ _ _ _ _ _ _) as [st n]. specialize (IH false (if marked w j then readers v ++ js else js) N). destruct (deliverAll _ _ _ _ _ r _) as [r' q]. cbn [snd] in *.
        destruct (marked w j); [|exact IH]. cbn [handed List.filter fst]. destruct (Z.eqb_spec j i); [congruence|exact IH]. }
      specialize (N (writers m) true [] F). rewrite D in N. cbn [snd] in N. rewrite N. reflexivity.
  - cbn [List.filter length]. destruct C as [->| C]; [reflexivity|]. unfold mmem. rewrite C. cbn [mfind]. rewrite andb_false_r. reflexivity.
Qed.
(** A regular filter never uses a destination that is not there; a serving one would, if it is not a source. *)
Theorem C62_destination_partial : forall s e, sstep e s = None <->
  exists now input src w, e = SRound now input src w /\ srole s = Server /\ (skind s = OneToOne \/ skind s = ManyToOne) /\ writers s = [].
Proof.
  intros s e. split.
  - destruct e as [now input src w|i g rs|i]; cbn [sstep].
    + intros H. exists now, input, src, w. split; [reflexivity|]. unfold process in H. destruct (srole s) eqn:R.
      * destruct (writers s) as [|x ws]; [rewrite andb_false_r in H; discriminate|]. destruct (input && true); [|discriminate]. destruct (deliverAll _ _ _ _ _ _ _); discriminate.
      * destruct (writers s) as [|x ws]; [|destruct (deliverAll _ _ _ _ _ _ _); discriminate]. unfold needsWriter in H. destruct (skind s); try discriminate; auto.
      * discriminate.
    + destruct (_ || _); [discriminate|]. destruct g; discriminate.
    + discriminate.
  - intros (now & input & src & w & -> & R & K & W). cbn [sstep]. unfold process. rewrite R, W. destruct K as [-> | ->]; reflexivity.
Qed.
(** What the hypothesis on the work rules out: a source that marks a frame and then reports failure hands on a frame
    with the stamp of an older one. *)
Theorem C62_marked_failure_refuted : forall s now src w i wr, skind s = Head -> srole s = Server -> writers s = [(i, wr)] ->
  ok w = false -> marked w i = true ->
  exists s' p, sstep (SRound now true src w) s = Some (s', p) /\ handed p = [(i, own w i)] /\ mfind i (writers s') = Some wr.
Proof.
  intros s now src w i wr K R W O M. cbn [sstep]. unfold process. rewrite R, W. cbn [deliverAll]. unfold stamped. rewrite O, M. eexists. eexists. split; [reflexivity|].
  cbn [handed withSelf writers mfind]. rewrite Z.eqb_refl. split; [reflexivity|]. destruct wr; reflexivity.
Qed.

Definition exWork (b : bool) : work := mkWork b (fun i => b) (fun _ => mkSt 7 7).
Definition exStage : stage := mkStage 5 Head Regular true 2 [].
Definition exAfter : list sevent :=
  [SRound 100 true (mkSt 0 0) (exWork true); SConnect 9 true [3]; SRound 140 true (mkSt 0 0) (exWork false); SRound 180 true (mkSt 0 0) (exWork true); SDisconnect 9].
Example C62_case : built exStage /\ Forall (honest Head) exAfter /\ Forall (keeps 4) exAfter /\
  let r := srun (SConnect 4 true [1; 2] :: exAfter) exStage in
  snd r = true /\ stampsOf 4 (snd (fst r)) = [mkSt 0 100; mkSt 1 180] /\ stampsOf 9 (snd (fst r)) = [mkSt 0 180] /\
  map jobs (snd (fst r)) = [[]; [1; 2; 5]; []; [5]; [3; 1; 2; 5]; []].
Proof.
  split; [split; [reflexivity|discriminate]|]. split; [repeat constructor; cbn; auto|]. split; [repeat constructor; unfold keeps; discriminate|].
  vm_compute. repeat split.
Qed.
Print Assumptions C62_stamps_partial.
Print Assumptions C62_no_gaps.
Print Assumptions C62_wakes.
Print Assumptions C62_handed_on.
Print Assumptions C62_destination_partial.
Print Assumptions C62_marked_failure_refuted.
