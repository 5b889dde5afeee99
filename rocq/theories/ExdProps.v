(** C108: the configuration data a decoder was opened with stay while it uses them. *)
From Coq Require Import Arith ZArith List Bool Lia.
From Verif Require Import ExdModel ExdSpec ExdProofs.
Import ListNotations.
Local Open Scope list_scope.

(** Whatever happened: the description of a stream tells the data given last, whole. *)
Theorem C108_description_whole : forall es s, run es store0 = Some s -> told s = given (knownAfter es).
Proof.
  intros es s R. pose proof (reach_inv es s R) as I. unfold told. destruct (cur s) as [c|] eqn:C; [|symmetry; exact (i_none _ _ I C)].
  destruct (i_cur _ _ I c C) as [d [D G]]. apply at_nth in D. rewrite D. destruct (given (knownAfter es)) as [x|].
  - destruct G as [b [E [N B]]]. rewrite E, N. apply at_nth in B. rewrite B, firstn_all. reflexivity.
  - destruct G as [G _]. rewrite G. reflexivity.
Qed.
Example C108_description_whole_ex : exists s, run [NewDesc; Headers [1%Z; 2%Z]; Plug; Open; Headers [3%Z]; Open; Read 0] store0 = Some s /\ told s = Some [3%Z].
Proof. eexists. split; reflexivity. Qed.

(** Whatever happened: nothing is kept but those data. *)
Theorem C108_nothing_else_kept : forall es s, run es store0 = Some s -> live s = match given (knownAfter es) with Some _ => 1 | None => 0 end.
Proof. intros es s R. exact (i_live _ _ (reach_inv es s R)). Qed.
Example C108_nothing_else_kept_ex : exists s, run [NewDesc; Headers [1%Z]; Headers [2%Z]; Gone; NewDesc; Headers [3%Z]] store0 = Some s /\ live s = 1.
Proof. eexists. split; reflexivity. Qed.

(** Giving data, describing again and freeing the description are never undefined. *)
Theorem C108_producer_safe : forall es s e, run es store0 = Some s -> (match e with NewDesc | Headers _ | Gone | Plug => True | _ => False end) -> run (es ++ [e]) store0 <> None.
Proof.
  intros es s e R E. pose proof (reach_inv es s R) as I. rewrite run_app, R. destruct e as [|x| | | |n]; cbn [run step]; try contradiction; try discriminate.
  - unfold headers. destruct (cur s) as [c|] eqn:C; [|discriminate]. destruct (i_cur _ _ I c C) as [d [D _]]. rewrite D. discriminate.
  - unfold gone. destruct (cur s) as [c|] eqn:C; [|discriminate]. destruct (i_cur _ _ I c C) as [d [D _]]. rewrite D. discriminate.
Qed.
Example C108_producer_safe_ex : run [NewDesc; Headers [1%Z]; Plug; Open; Gone] store0 <> None /\ run [NewDesc; Headers [1%Z]; Plug; Open; Gone; NewDesc; Headers [7%Z]] store0 <> None.
Proof. split; discriminate. Qed.

Lemma stays : forall q s b n, Forall quiet q -> ~ In Open q -> Forall (fun e => match e with Read k => k = 0 | _ => True end) q -> ctx s = Some (Some b, n) ->
  (exists x, at_ b (blocks s) = Some x /\ n = length x) -> exists t, run q s = Some t /\ ctx t = ctx s /\ blocks t = blocks s.
Proof.
  induction q as [|e q IH]; intros s b n Q NO RZ C B; [exists s; repeat split; reflexivity|].
  inversion Q as [|? ? Q1 Q2]; subst. inversion RZ as [|? ? R1 R2]; subst. assert (NO2 : ~ In Open q) by (intro J; apply NO; right; exact J).
  destruct B as [x [B N]]. destruct e as [|y| | | |k]; cbn [quiet] in Q1; try contradiction; cbn [run step].
  - destruct (IH (newDesc s) b n Q2 NO2 R2) as [t [T1 [T2 T3]]].
    + unfold newDesc. destruct (cur s); exact C.
    + exists x. unfold newDesc. destruct (cur s); split; assumption.
    + exists t. unfold newDesc in *. destruct (cur s); repeat split; assumption.
  - destruct (IH (plug s) b n Q2 NO2 R2 C) as [t [T1 [T2 T3]]]; [exists x; split; assumption|]. exists t. repeat split; assumption.
  - exfalso. apply NO. left. reflexivity.
  - subst k. unfold read. rewrite C, B. subst n. rewrite Nat.add_0_r, Nat.leb_refl.
    destruct (IH s b (length x) Q2 NO2 R2 C) as [t T]; [exists x; split; [assumption | reflexivity]|]. exists t. rewrite <- C. exact T.
Qed.

(** As long as the producer neither gives new data nor frees the description: the decoder reads the data that had been given when it was configured.
    Missing: nothing makes the producer wait (see below). *)
Theorem C108_reads_what_was_given_partial : forall es s x q, run es store0 = Some s -> joined (knownAfter es) = true -> given (knownAfter es) = Some x ->
  Forall quiet q -> ~ In Open q -> ~ (exists k, In (Read (S k)) q) -> exists t, run (es ++ Open :: q) store0 = Some t /\ read 0 t = Some x.
Proof.
  intros es s x q R J G Q NO NR. pose proof (reach_inv es s R) as I. destruct (open_joined _ _ I J) as [u [U [UB [UD [UC [UQ UX]]]]]]. rewrite G in UX.
  destruct UX as [b [X [B _]]]. rewrite run_app, R. cbn [run step]. rewrite U.
  assert (RZ : Forall (fun e => match e with Read k => k = 0 | _ => True end) q).
  { apply Forall_forall. intros [|y| | | |[|k]] H; auto. exfalso. apply NR. exists k. exact H. }
  rewrite <- UB in B. destruct (stays q u b (length x) Q NO RZ X) as [t [T1 [T2 T3]]]; [exists x; split; [exact B | reflexivity]|].
  exists t. split; [exact T1|]. unfold read. rewrite T2, X, T3, B, Nat.add_0_r, Nat.leb_refl, firstn_all. reflexivity.
Qed.
Example C108_reads_what_was_given_ex : exists t, run ([NewDesc; Headers [5%Z]; Plug; Headers [1%Z; 2%Z]] ++ Open :: [Read 0; Plug; Read 0]) store0 = Some t /\ read 0 t = Some [1%Z; 2%Z].
Proof. eexists. split; reflexivity. Qed.

(** Refuted: the encoder is configured again while a decoder is open (VideoEncoderX264.cpp 118): whatever had happened and whatever the data, the
    next reading is of freed memory. *)
Theorem C108_new_headers_refuted : forall es s x y n, run es store0 = Some s -> joined (knownAfter es) = true -> given (knownAfter es) = Some x ->
  run (es ++ [Open; Headers y]) store0 <> None /\ run (es ++ [Open; Headers y; Read n]) store0 = None.
Proof.
  intros es s x y n R J G. pose proof (reach_inv es s R) as I. destruct (open_joined _ _ I J) as [u [U [UB [UD [UC [UQ UX]]]]]]. rewrite G in UX.
  destruct UX as [b [X [B E]]]. rewrite !run_app, R. cbn [run step]. rewrite U. unfold headers. rewrite UC, UD, UB.
  pose proof (i_join _ _ I) as Jk. rewrite J in Jk. destruct (cur s) as [c|] eqn:C; [|discriminate].
  destruct (i_cur _ _ I c C) as [d [D _]]. rewrite D. pose proof (E c d eq_refl D) as F. cbv zeta. unfold setExtraData. rewrite F. cbn [fst snd].
  split; [discriminate|]. unfold read. cbn [ctx blocks]. rewrite X, at_app, put_len. pose proof (at_lt _ _ _ _ B) as L. destruct (b =? length (blocks s)) eqn:W; [apply Nat.eqb_eq in W; lia|].
  rewrite at_put_same by exact L. reflexivity.
Qed.
Example C108_new_headers_ex : run [NewDesc; Plug; Headers [1%Z]; Open; Read 0; Headers [1%Z]] store0 <> None /\ run [NewDesc; Plug; Headers [1%Z]; Open; Read 0; Headers [1%Z]; Read 0] store0 = None.
Proof. split; [discriminate | reflexivity]. Qed.

(** Refuted: another file is opened (HeadDemuxerLibav.cpp 77-81, 273) while a queue for the old one is there: the open decoder reads freed memory,
    and configuring it again uses the freed description. *)
Theorem C108_description_gone_refuted : forall es s x n, run es store0 = Some s -> joined (knownAfter es) = true -> given (knownAfter es) = Some x ->
  run (es ++ [Open; Gone; NewDesc; Read n]) store0 = None /\ run (es ++ [Gone; NewDesc; Open]) store0 = None.
Proof.
  intros es s x n R J G. pose proof (reach_inv es s R) as I. destruct (open_joined _ _ I J) as [u [U [UB [UD [UC [UQ UX]]]]]]. rewrite G in UX.
  destruct UX as [b [X [B E]]]. pose proof (i_join _ _ I) as Jk. rewrite J in Jk. destruct (cur s) as [c|] eqn:C; [|discriminate].
  destruct (queue s) as [q|] eqn:Q; [|discriminate]. symmetry in Jk. apply Nat.eqb_eq in Jk. subst q.
  destruct (i_cur _ _ I c C) as [d [D _]]. pose proof (E c d eq_refl D) as F. pose proof (at_lt _ _ _ _ B) as L. pose proof (at_lt _ _ _ _ D) as L2.
  rewrite !run_app, R. cbn [run step]. split.
  - rewrite U. unfold gone. rewrite UC, UD, UB, D. unfold setExtraData. rewrite F. cbn [fst]. unfold newDesc. cbn [cur]. unfold read. cbn [ctx blocks].
    rewrite X, at_put_same by exact L. reflexivity.
  - unfold gone. rewrite C, D. unfold newDesc. cbn [cur]. unfold open. cbn [queue descs]. rewrite Q, at_app, put_len.
    destruct (c =? length (descs s)) eqn:W; [apply Nat.eqb_eq in W; lia|]. rewrite at_put_same by exact L2. reflexivity.
Qed.
Example C108_description_gone_ex : run [NewDesc; Plug; Headers [1%Z]; Open; Read 0; Gone; NewDesc] store0 <> None /\ run [NewDesc; Plug; Headers [1%Z]; Open; Read 0; Gone; NewDesc; Read 0] store0 = None.
Proof. split; [discriminate | reflexivity]. Qed.

(** A sender reads the data given last, also those given after it was made, as long as the description its queue was made for is there. *)
Theorem C108_sender_partial : forall es s, run es store0 = Some s -> joined (knownAfter es) = true ->
  senderReads s = Some (match given (knownAfter es) with Some x => x | None => [] end).
Proof.
  intros es s R J. pose proof (reach_inv es s R) as I. pose proof (i_join _ _ I) as Jk. rewrite J in Jk.
  destruct (cur s) as [c|] eqn:C; [|discriminate]. destruct (queue s) as [q|] eqn:Q; [|discriminate]. symmetry in Jk. apply Nat.eqb_eq in Jk. subst q.
  destruct (i_cur _ _ I c C) as [d [D G]]. unfold senderReads. rewrite Q, D. destruct (given (knownAfter es)) as [x|].
  - destruct G as [b [E [N B]]]. rewrite N, E, B, firstn_all. destruct x; reflexivity.
  - destruct G as [_ N]. rewrite N. reflexivity.
Qed.
Example C108_sender_ex : exists s, run [NewDesc; Plug; Headers [1%Z]; Headers [2%Z; 3%Z]] store0 = Some s /\ senderReads s = Some [2%Z; 3%Z].
Proof. eexists. split; reflexivity. Qed.

(** Refuted: once the description is freed (HeadDemuxerLibav.cpp 77-81), the sender uses it. *)
Theorem C108_sender_gone_refuted : forall es s, run es store0 = Some s -> joined (knownAfter es) = true ->
  exists t, run (es ++ [Gone; NewDesc]) store0 = Some t /\ senderReads t = None.
Proof.
  intros es s R J. pose proof (reach_inv es s R) as I. pose proof (i_join _ _ I) as Jk. rewrite J in Jk.
  destruct (cur s) as [c|] eqn:C; [|discriminate]. destruct (queue s) as [q|] eqn:Q; [|discriminate]. symmetry in Jk. apply Nat.eqb_eq in Jk. subst q.
  destruct (i_cur _ _ I c C) as [d [D _]]. pose proof (at_lt _ _ _ _ D) as L2. rewrite run_app, R. cbn [run step]. unfold gone. rewrite C, D. eexists. split; [reflexivity|].
  unfold newDesc. cbn [cur]. unfold senderReads. cbn [queue descs]. rewrite Q, at_app, put_len.
  destruct (c =? length (descs s)) eqn:W; [apply Nat.eqb_eq in W; lia|]. rewrite at_put_same by exact L2. reflexivity.
Qed.
Example C108_sender_gone_ex : exists s, run [NewDesc; Plug; Headers [1%Z]; Gone; NewDesc; Headers [4%Z]] store0 = Some s /\ senderReads s = None.
Proof. eexists. split; reflexivity. Qed.

(** Refuted: the library asks for bytes it may read after the data; there is not one (StreamInfo.hh 74). *)
Theorem C108_room_after_refuted : forall es s x n, run es store0 = Some s -> joined (knownAfter es) = true -> given (knownAfter es) = Some x -> run (es ++ [Open; Read (S n)]) store0 = None.
Proof.
  intros es s x n R J G. pose proof (reach_inv es s R) as I. destruct (open_joined _ _ I J) as [u [U [UB [UD [UC [UQ UX]]]]]]. rewrite G in UX.
  destruct UX as [b [X [B E]]]. rewrite run_app, R. cbn [run step]. rewrite U. unfold read. rewrite X, UB, B.
  destruct (length x + S n <=? length x) eqn:W; [apply Nat.leb_le in W; lia | reflexivity].
Qed.
Example C108_room_after_ex : run [NewDesc; Plug; Headers [1%Z]; Open; Read 1] store0 = None.
Proof. reflexivity. Qed.

Print Assumptions C108_description_whole.
Print Assumptions C108_nothing_else_kept.
Print Assumptions C108_producer_safe.
Print Assumptions C108_reads_what_was_given_partial.
Print Assumptions C108_new_headers_refuted.
Print Assumptions C108_description_gone_refuted.
Print Assumptions C108_room_after_refuted.
Print Assumptions C108_sender_partial.
Print Assumptions C108_sender_gone_refuted.
