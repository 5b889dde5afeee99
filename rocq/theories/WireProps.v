(** C94: what a granted path connects, whom a queue tells of new frames, and which commands
    cut a connection. *)
From Verif Require Import Base ZMap NetModel NetProofs PipeModel PipeSpec PipeProofs PipeProps WireSpec WireProofs WireKeep.

(** A path command that is granted connects the whole path: its origin, from the output asked
    for, feeds the first filter of the list, every filter feeds the next, and the last one feeds
    the destination at the input asked for. *)
Theorem C94_path_connects p h e id org dst ow dr mids p' : phist p h ->
  pcmd p e (CreatePath id org dst ow dr mids) = Ok (p', true) ->
  exists pa, mfind id (ppaths p') = Some pa /\ porg pa = org /\ pdst pa = dst /\ pmid pa = mids /\
    ((0 <= ow)%Z -> pow pa = ow) /\ ((0 <= dr)%Z -> pdr pa = dr) /\
    line (pnet p') org (pow pa) mids dst (pdr pa).
Proof.
  intros H E. cbn [pcmd] in E. apply (proj2 (ri_createPathEvent p e id org dst ow dr mids p' true (proj1 (phist_inv p h H)) (ri_hist p h H) E) eq_refl).
Qed.

(** The filters told of the frames of a connected output are those with an input it feeds, each
    once. *)
Theorem C94_told p h f w x q k : phist p h ->
  mfind f (fs (pnet p)) = Some x -> mfind w (fwr x) = Some (Some q) -> nth_error (qs (pnet p)) q = Some k -> qconn k = true ->
  NoDup (told k) /\ forall g, In g (told k) <-> exists r, connected (pnet p) f w g r.
Proof.
  intros H Hf Hw Hk Hc. pose proof (ri_hist p h H q k Hk Hc) as [Q1 Q2 Q3 Q4 Q5]. split; [exact Q3|].
  assert (L : qlive k = true).
  { pose proof (wf_heap _ (pi_wf p (proj1 (phist_inv p h H))) q) as G. cbn beta in G. rewrite Hk in G. unfold qok in G.
    destruct (qlive k); [reflexivity|]. pose proof (writer_ptr _ f x w (Some q) Hf Hw q eq_refl). lia. }
  intros g. split.
  - intros Hg. apply in_map_iff in Hg. destruct Hg as ([g' r] & Eg & Hg). cbn in Eg. subst g'.
    destruct (Q4 g r Hg) as (_ & y & o & z & A1 & A2 & A3 & A4 & A5). exists r, x, y, q, o, z, k.
    repeat (split; [assumption|]). assumption.
  - intros (r & x' & y & q' & o & z & k' & A1 & A2 & A3 & A4 & A5 & A6 & A7 & A8 & A9 & A10).
    assert (x' = x) by congruence. subst x'. assert (q' = q) by congruence. subst q'. apply (Q5 o z g A5 A6 A7).
Qed.

(** So nobody who is gone is told. *)
Theorem C94_told_exists p h f w x q k g : phist p h ->
  mfind f (fs (pnet p)) = Some x -> mfind w (fwr x) = Some (Some q) -> nth_error (qs (pnet p)) q = Some k -> qconn k = true ->
  In g (told k) -> mfind g (fs (pnet p)) <> None.
Proof.
  intros H Hf Hw Hk Hc Hg. apply (proj2 (C94_told p h f w x q k H Hf Hw Hk Hc)) in Hg.
  destruct Hg as (r & x' & y & q' & o & z & k' & A1 & A2 & A3 & _). congruence.
Qed.

(** An input is fed by one output. *)
Theorem C94_one_source p h f w f' w' g r : phist p h ->
  connected (pnet p) f w g r -> connected (pnet p) f' w' g r -> f = f' /\ w = w'.
Proof.
  intros H (x & y & q & o & z & k & A1 & A2 & A3 & A4 & A5 & A6 & A7 & A8 & A9 & A10)
    (x' & y' & q' & o' & z' & k' & B1 & B2 & B3 & B4 & B5 & B6 & B7 & B8 & B9 & B10).
  assert (y' = y) by congruence. subst y'. assert (o' = o) by congruence. subst o'. assert (z' = z) by congruence. subst z'.
  assert (q' = q) by congruence. subst q'. apply (one_output _ f w x q f' w' x' k (ri_hist p h H) A8 A10 A1 A2 B1 B2).
Qed.

(** An output feeds a filter at one input. *)
Theorem C94_one_input p h f w g r r' : phist p h ->
  connected (pnet p) f w g r -> connected (pnet p) f w g r' -> r = r'.
Proof.
  intros H (x & y & q & o & z & k & A1 & A2 & A3 & A4 & A5 & A6 & A7 & A8 & A9 & A10)
    (x' & y' & q' & o' & z' & k' & B1 & B2 & B3 & B4 & B5 & B6 & B7 & B8 & B9 & B10).
  assert (x' = x) by congruence. subst x'. assert (y' = y) by congruence. subst y'. assert (q' = q) by congruence. subst q'.
  assert (W := pi_wf p (proj1 (phist_inv p h H))).
  assert (o = o') by (apply (rptrs_uniq q _ o o' z z' (one_reader _ q k W A8) A5 B5 A6 B6)). subst o'.
  apply (one_input _ g y r r' o z q k (ri_hist p h H) (mi_hist p h H) A3 A4 B4 A5 A6 A8 A10).
Qed.

(** A granted removal of a path: the path is no longer known, nothing feeds its end any more,
    and the filters between its ends are gone. *)
Theorem C94_removed p h e id pa p' : phist p h -> mfind id (ppaths p) = Some pa ->
  pcmd p e (RemovePath id) = Ok (p', true) ->
  mfind id (ppaths p') = None /\ (forall f w, ~ connected (pnet p') f w (pdst pa) (pdr pa)) /\
  (forall m, In m (pmid pa) -> mfind m (fs (pnet p')) = None).
Proof.
  intros H Hid E. cbn [pcmd] in E. destruct (phist_inv p h H) as [PIp _].
  pose proof (removePath_safe p e id PIp) as S. rewrite E in S. destruct S as (_ & _ & _ & _ & _ & S).
  destruct (S eq_refl pa Hid) as (S1 & _ & _ & S2 & _). split; [|split].
  - rewrite S1, mfind_mdel by apply (pi_paths p PIp). rewrite Z.eqb_refl. reflexivity.
  - intros f w (x & y & q & o & z & k & A1 & A2 & A3 & A4 & _). unfold removePath, mmem in E. rewrite Hid in E. cbn [negb] in E.
    apply bind_ok in E. destruct E as ([p1 ok] & E1 & E). destruct (ri_deletePath p e id p1 ok PIp E1 (ri_hist p h H)) as [_ N].
    destruct ok; [|discriminate]. inversion E; subst p'. cbn [pnet] in *. rewrite (N eq_refl pa Hid y A3) in A4. discriminate.
  - intros m Hm. specialize (S2 m (or_introl Hm)). unfold objOf, pfilters in S2. destruct (mfind m (fs (pnet p'))); [discriminate|reflexivity].
Qed.

(** What is connected stays connected, whatever the command and its answer, between filters that
    are still there, unless the command removes a path that ends at the very input (stop removes
    all paths). *)
Theorem C94_stays p h e c p' b f w g r : phist p h -> pcmd p e c = Ok (p', b) -> connected (pnet p) f w g r ->
  mfind f (fs (pnet p')) <> None -> mfind g (fs (pnet p')) <> None ->
  (forall id pa, c = RemovePath id \/ c = Stop -> mfind id (ppaths p) = Some pa -> ~ (pdst pa = g /\ pdr pa = r)) ->
  connected (pnet p') f w g r.
Proof.
  intros H E C A B N. destruct (cmd_keeps p e c p' b (proj1 (phist_inv p h H)) (ri_hist p h H) (mi_hist p h H) E) as [_ K].
  apply (K f w g r C A B). intros (id & Hc & pa & G1 & G2). apply (N id pa Hc G1 G2).
Qed.

(** So a whole line stays through every command that removes nothing of it. *)
Theorem C94_line_stays p h e c p' b f w mids g r : phist p h -> pcmd p e c = Ok (p', b) ->
  line (pnet p) f w mids g r -> (forall a, In a (f :: g :: mids) -> mfind a (fs (pnet p')) <> None) ->
  (forall id, c <> RemovePath id) -> c <> Stop -> line (pnet p') f w mids g r.
Proof.
  intros H E L A N1 N2. induction L as [f w g r C|f w m r0 w0 t g r C L IH].
  - apply line_last. apply (C94_stays p h e c p' b f w g r H E C); [apply A; cbn; auto|apply A; cbn; auto|].
    intros id pa [G|G]; exfalso; [apply (N1 id G)|apply (N2 G)].
  - apply (line_mid _ f w m r0 w0 t g r).
    + apply (C94_stays p h e c p' b f w m r0 H E C); [apply A; cbn; auto|apply A; cbn; auto|].
      intros id pa [G|G]; exfalso; [apply (N1 id G)|apply (N2 G)].
    + apply IH. intros a [<-|[<-|Ha]]; apply A; cbn; auto.
Qed.

(** A receiver 1, a transmitter 4 and a second transmitter 5; path 10 through decoder 2 and
    encoder 3, path 11 straight from the output of path 10 (grouped with it). *)
Definition grouped : list (env * cmd) :=
  plain ++ [(yes, CreateFilter 5 TRANSMITTER true); (yes, CreatePath 10 1 4 7 7 [2%Z; 3%Z]); (yes, CreatePath 11 1 5 7 8 [])].
Example grouped_instance : exists p h x q k, phist p h /\ line (pnet p) 1 7 [2%Z; 3%Z] 4 7 /\ connected (pnet p) 1 7 5 8 /\
  mfind 1 (fs (pnet p)) = Some x /\ mfind 7 (fwr x) = Some (Some q) /\ nth_error (qs (pnet p)) q = Some k /\ qconn k = true /\
  told k = [2%Z; 5%Z] /\
  exists p', pcmd p yes (RemovePath 10) = Ok (p', true) /\ connected (pnet p') 1 7 5 8.
Proof.
  destruct (replay emptyPipe grouped) as [[p h]|] eqn:R; [|vm_compute in R; discriminate].
  pose proof (final_phist _ _ _ R) as H. vm_compute in R. injection R as <- <-. eexists _, _, _, _, _. split; [exact H|]. clear.
  split.
  { apply (line_mid _ 1 7 2 1 1)%Z; [|apply (line_mid _ 2 1 3 1 1)%Z; [|apply line_last]];
      unfold connected; do 6 eexists; repeat split; try reflexivity; left; reflexivity. }
  split; [unfold connected; do 6 eexists; repeat split; try reflexivity; right; left; reflexivity|].
  split; [reflexivity|]. split; [reflexivity|]. split; [reflexivity|]. split; [reflexivity|]. split; [reflexivity|].
  eexists. split; [vm_compute; reflexivity|]. unfold connected; do 6 eexists; repeat split; try reflexivity; left; reflexivity.
Qed.

Print Assumptions C94_path_connects.
Print Assumptions C94_told.
Print Assumptions C94_told_exists.
Print Assumptions C94_one_source.
Print Assumptions C94_one_input.
Print Assumptions C94_removed.
Print Assumptions C94_stays.
Print Assumptions C94_line_stays.
