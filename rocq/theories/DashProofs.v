(** The segmenters produce the segments the specification describes. *)
From Coq Require Import String.
From Verif Require Import Base Bytes IsoModel IsoSpec IsoProofs DashModel DashSpec.
Local Open Scope list_scope.
Local Open Scope Z_scope.

Definition wf (f : vframe) : Prop := 0 <= fpts f < 18446744073709551616 /\ 1 <= len (fbytes f).

Fixpoint samplesOf (stale : Z) (g : list vframe) : list sample :=
  match g with
  | [] => []
  | f :: r => mkSample (len (fbytes f)) (match r with [] => stale | f' :: _ => u32 (fdts f' - fdts f) end) (fpts f) (fintra f) (fdts f)
              :: samplesOf stale r
  end.
Fixpoint durOf (g : list vframe) : Z :=
  match g with
  | f :: ((f' :: _) as r) => u32 (fdts f' - fdts f) + durOf r
  | _ => 0
  end.
Definition lastF (g : list vframe) (d : vframe) : vframe := last g d.

Lemma samples_length stale g : length (samplesOf stale g) = length g.
Proof. induction g as [|f g IH]; [reflexivity|]. cbn [samplesOf length]. rewrite IH. reflexivity. Qed.

Lemma samples_snoc stale g l f :
  samplesOf stale (g ++ [l; f]) = setLastDur (u32 (fdts f - fdts l)) (samplesOf stale (g ++ [l])) ++ [mkSample (len (fbytes f)) stale (fpts f) (fintra f) (fdts f)].
Proof.
  induction g as [|x g IH]; [reflexivity|]. cbn [app samplesOf].
  destruct g as [|y g].
  - cbn [app samplesOf setLastDur]. reflexivity.
  - cbn [app] in *. rewrite IH. cbn [samplesOf]. set (t := samplesOf stale (g ++ [l])). cbn [setLastDur].
    destruct (mkSample (len (fbytes y)) (match g ++ [l] with [] => stale | f' :: _ => u32 (fdts f' - fdts y) end) (fpts y) (fintra y) (fdts y) :: t) eqn:E.
    + discriminate.
    + reflexivity.
Qed.
Lemma last_sample stale g l : lastSample (samplesOf stale (g ++ [l])) = Some (mkSample (len (fbytes l)) stale (fpts l) (fintra l) (fdts l)).
Proof.
  unfold lastSample. assert (E: exists t, samplesOf stale (g ++ [l]) = t ++ [mkSample (len (fbytes l)) stale (fpts l) (fintra l) (fdts l)]).
  { induction g as [|x g [t IH]]; [exists []; reflexivity|]. cbn [app samplesOf]. rewrite IH. eexists (_ :: t). reflexivity. }
  destruct E as [t ->]. rewrite rev_app_distr. reflexivity.
Qed.

Lemma u32_u32 a : u32 (u32 a) = u32 a. Proof. unfold u32. apply Z.mod_mod. lia. Qed.
Lemma u32_add_l a b : u32 (u32 a + b) = u32 (a + b). Proof. unfold u32. apply Z.add_mod_idemp_l. lia. Qed.
Lemma u32_add_r a b : u32 (a + u32 b) = u32 (a + b). Proof. unfold u32. apply Z.add_mod_idemp_r. lia. Qed.
Lemma u32_sub_l a b : u32 (u32 a - b) = u32 (a - b).
Proof. unfold u32. apply Zminus_mod_idemp_l. Qed.
Lemma u32_sub_r a b : u32 (a - u32 b) = u32 (a - b).
Proof. unfold u32. apply Zminus_mod_idemp_r. Qed.

Lemma dur_snoc g l f : u32 (u32 (durOf (g ++ [l])) + u32 (fdts f - fdts l)) = u32 (durOf (g ++ [l; f])).
Proof.
  rewrite u32_add_l. f_equal. induction g as [|x g IH]; [cbn [app durOf]; lia|]. cbn [app].
  destruct g as [|y g].
  - cbn [app durOf]. lia.
  - cbn [app] in *. change (durOf (x :: y :: g ++ [l; f])) with (u32 (fdts y - fdts x) + durOf (y :: g ++ [l; f])).
    change (durOf (x :: y :: g ++ [l])) with (u32 (fdts y - fdts x) + durOf (y :: g ++ [l])). lia.
Qed.
Lemma dur_telescope g l : u32 (durOf (g ++ [l])) = u32 (fdts l - fdts (hd l (g ++ [l]))).
Proof.
  induction g as [|x g IH]; [cbn; unfold u32; f_equal; lia|]. cbn [app hd]. destruct g as [|y g].
  - cbn [app durOf]. rewrite Z.add_0_r, u32_u32. reflexivity.
  - cbn [app hd] in *. change (durOf (x :: y :: g ++ [l])) with (u32 (fdts y - fdts x) + durOf (y :: g ++ [l])).
    rewrite u32_add_l. rewrite <- u32_add_r, IH, u32_add_r. f_equal. lia.
Qed.

(** The pairs (bytes, sample) of a closed segment. *)
Definition pairsOf (d : Z) (stale : Z) (g : list vframe) : list (bytes * sample) := combine (map fbytes g) (setLastDur d (samplesOf stale g)).
Lemma setLast_length d ss : length (setLastDur d ss) = length ss.
Proof. induction ss as [|s [|s' ss] IH]; [reflexivity|reflexivity|]. change (setLastDur d (s :: s' :: ss)) with (s :: setLastDur d (s' :: ss)). cbn [length] in *. lia. Qed.
Lemma combine_fst (A B : Type) (a : list A) (b : list B) : length a = length b -> map fst (combine a b) = a.
Proof. revert b. induction a as [|x a IH]; intros [|y b] H; try discriminate; [reflexivity|]. cbn. rewrite IH by (cbn in H; lia). reflexivity. Qed.
Lemma combine_snd (A B : Type) (a : list A) (b : list B) : length a = length b -> map snd (combine a b) = b.
Proof. revert b. induction a as [|x a IH]; intros [|y b] H; try discriminate; [reflexivity|]. cbn. rewrite IH by (cbn in H; lia). reflexivity. Qed.

Lemma pairs_accesses m nxt stale g l : isVideo m = true ->
  map (accessOf m) (pairsOf (u32 (fpts nxt - fpts l)) stale (g ++ [l])) = accesses (g ++ [l]) nxt.
Proof.
  intros V. unfold pairsOf. induction g as [|x g IH].
  - cbn [app map samplesOf setLastDur combine accesses]. unfold accessOf. rewrite V. cbn [fst snd sdur spts sdts skey].
    unfold u32. rewrite Z.mod_mod by lia. reflexivity.
  - cbn [app map samplesOf accesses]. destruct (samplesOf stale (g ++ [l])) as [|s0 t] eqn:E.
    { apply (f_equal (@List.length sample)) in E. rewrite samples_length, app_length in E. cbn in E. lia. }
    rewrite <- E in *.
    match goal with |- context [setLastDur ?d (?a :: ?b)] => replace (setLastDur d (a :: b)) with (a :: setLastDur d b) by (rewrite E; reflexivity) end.
    cbn [combine map]. rewrite IH. f_equal. unfold accessOf. rewrite V. cbn [fst snd sdur spts sdts skey].
    destruct (g ++ [l]) as [|y r] eqn:E2; [destruct g; discriminate|].
    f_equal. apply u32_u32.
Qed.
Lemma pairs_sizes d stale g : Forall (fun p => ssize (snd p) = len (fst p)) (pairsOf d stale g).
Proof.
  unfold pairsOf. induction g as [|x g IH]; [constructor|]. cbn [map samplesOf]. destruct g as [|y g].
  - cbn. constructor; [reflexivity|constructor].
  - match goal with |- context [setLastDur d (?a :: ?b)] => replace (setLastDur d (a :: b)) with (a :: setLastDur d b) by reflexivity end.
    cbn [combine]. constructor; [reflexivity|exact IH].
Qed.
Lemma accesses_total g l nxt : totalOf (accesses (g ++ [l]) nxt) mod 4294967296 = u32 (durOf (g ++ [l]) + (fpts nxt - fpts l)).
Proof.
  assert (H: totalOf (accesses (g ++ [l]) nxt) = durOf (g ++ [l]) + u32 (fpts nxt - fpts l)).
  { induction g as [|x g IH]; [cbn; unfold u32; lia|]. cbn [app accesses]. cbn [totalOf fold_right adur]. fold (totalOf (accesses (g ++ [l]) nxt)). rewrite IH.
    destruct g as [|y g]; [cbn [app durOf]; unfold u32; lia|]. cbn [app].
    change (durOf (x :: y :: g ++ [l])) with (u32 (fdts y - fdts x) + durOf (y :: g ++ [l])). unfold u32. lia. }
  rewrite H. apply u32_add_r.
Qed.

(** *** The invariant *)
Record Inv (m : media) (T stale : Z) (g : list vframe) (k : Z) (s : segmenter) : Prop := {
  i_seq : gseq s = u32 k;
  i_media : cmedia (gctx s) = m;
  i_flags : cflags (gctx s) = 3841;
  i_pos : cmoof (gctx s) = 0 /\ ctrun (gctx s) = 0;
  i_target : ctarget (gctx s) = T;
  i_data : cdata (gctx s) = concat (map fbytes g);
  i_samples : csamples (gctx s) = samplesOf stale g;
  i_first : g <> [] -> cept (gctx s) = startsAt g /\ cseq (gctx s) = u32 k /\ cdur (gctx s) = u32 (durOf g);
  i_room : len (concat (map fbytes g)) <= MAX_DAT /\ Z.of_nat (length g) <= MAX_MDAT_SAMPLE
}.

Definition codeRule (T : Z) (g : list vframe) (f : vframe) : bool :=
  fintra f && (u32 (T - (fpts f - lastPts g)) <=? u32 (durOf g + (fpts f - lastPts g))).

Lemma lastPts_snoc g l : lastPts (g ++ [l]) = fpts l.
Proof. unfold lastPts. rewrite rev_app_distr. reflexivity. Qed.
Lemma lastPts_in (g : list vframe) : g <> [] -> exists g' l, g = g' ++ [l].
Proof. intros N. destruct (exists_last N) as (g' & l & ->). eauto. Qed.

Lemma startsAt_wf g : Forall wf g -> 0 <= startsAt g < 18446744073709551616.
Proof. intros F. destruct F as [|f g [W _] _]; [cbn; lia|]. exact W. Qed.

(** What closing a segment gives. *)
Lemma shape_segTree m c r src : shapes (segTree m c r src) segmentShape.
Proof. unfold shapes, segTree, segmentShape. cbn [hasShape typeOf nd lf]. repeat split; reflexivity. Qed.

Lemma constants_segTree m c r src : Forall (holds (segTree m c r src)) segmentConstants /\ Forall (sized1 (segTree m c r src)) segmentSizes.
Proof.
  split; [repeat (apply Forall_cons; [split; [apply Nat.leb_le; reflexivity|reflexivity]|]); apply Forall_nil|].
  repeat (apply Forall_cons; [reflexivity|]). apply Forall_nil.
Qed.

Lemma index_segTree m c r0 src out c' st du :
  cmoof c = ctrun c -> segmentGenerator src m c r0 = Some (out, c') -> 0 <= st < 18446744073709551616 -> cept c = st -> cdur c = du -> 0 <= du < 4294967296 ->
  len (moofBytes m c) + 8 + len src < 4294967296 ->
  indexed (mkSegment out st du) (segTree m c (len (moofBytes m c) + 8 + len src) src).
Proof.
  intros P G ST E1 E2 DU B. destruct (segment_bytes _ _ _ _ _ _ P G) as (-> & _ & _). fold (segBytes m c src).
  set (r := len (moofBytes m c) + 8 + len src) in *. pose proof (len_nonneg (moofBytes m c)). pose proof (len_nonneg src).
  exists 80%nat. cbn [gbytes gstart gdur]. split; [apply start_seg|]. do 2 (split; [reflexivity|]).
  split; [change (Some (rd (be 8 (cept c))) = Some st); rewrite E1; f_equal; apply rd_be_id; exact ST|]. split; [reflexivity|].
  split.
  - change (Some (rd (be 4 r)) = Some (len (segBytes m c src) - 80)). f_equal. rewrite rd_be_id by (change (256 ^ Z.of_nat 4) with 4294967296; lia).
    unfold segBytes. fold r. rewrite !len_app, len_styp, len_sidx. unfold write_mdat. rewrite len_sized by reflexivity. lia.
  - change (Some (rd (be 4 (cdur c))) = Some du). rewrite E2. f_equal. apply rd_be_id. exact DU.
Qed.

Lemma close_segment m T stale g k s nxt : isVideo m = true -> Inv m T stale g k s -> g <> [] -> Forall wf g ->
  codeRule T g nxt = true ->
  exists sg c', generate_video_segment (fintra nxt) (fpts nxt) (gctx s) = (Some sg, c') /\
    isFragment sg (mkFragment (k mod 4294967296) (startsAt g) (accesses g nxt)) /\
    Inv m T stale [] (k + 1) (mkSeg c' (u32 (gseq s + 1))).
Proof.
  intros V I N W R. destruct (lastPts_in g N) as (g' & l & EG).
  destruct (i_first _ _ _ _ _ _ I N) as (F1 & F2 & F3). destruct (i_pos _ _ _ _ _ _ I) as (P1 & P2). destruct (i_room _ _ _ _ _ _ I) as (R1 & R2).
  unfold generate_video_segment. rewrite (i_samples _ _ _ _ _ _ I), EG, last_sample. cbn [spts]. rewrite <- EG.
  rewrite u32_sub_l. set (d := u32 (fpts nxt - fpts l)).
  unfold codeRule in R. rewrite EG, lastPts_snoc, <- EG in R.
  rewrite (i_target _ _ _ _ _ _ I), F3. unfold d at 1. rewrite u32_sub_r. unfold d at 1. rewrite u32_add_l, u32_add_r, R.
  set (c1 := withSegment (gctx s) (cdata (gctx s)) (cept (gctx s)) (cseq (gctx s)) (u32 (u32 (durOf g) + d)) (setLastDur d (samplesOf stale g)) (cmoof (gctx s)) (ctrun (gctx s))).
  assert (L: length (map fbytes g) = length (setLastDur d (samplesOf stale g))) by (rewrite setLast_length, samples_length, map_length; reflexivity).
  assert (FST: map fst (pairsOf d stale g) = map fbytes g) by (apply combine_fst, L).
  assert (SND: map snd (pairsOf d stale g) = setLastDur d (samplesOf stale g)) by (apply combine_snd, L).
  assert (LP: length (pairsOf d stale g) = length g) by (rewrite <- (map_length fst), FST, map_length; reflexivity).
  assert (CD: cdata c1 = concat (map fst (pairsOf d stale g))) by (rewrite FST; exact (i_data _ _ _ _ _ _ I)).
  assert (CM: cmedia c1 = m) by exact (i_media _ _ _ _ _ _ I).
  destruct (segmentGenerator (cdata c1) (cmedia c1) c1 0) as [[out c2]|] eqn:G.
  2:{ exfalso. unfold segmentGenerator in G. destruct (Z.ltb_spec (len (cdata c1)) 1) as [X|_].
      - rewrite CD, FST, EG, map_app, concat_app, len_app in X. cbn [map concat] in X. rewrite app_nil_r in X.
        pose proof (len_nonneg (concat (map fbytes g'))). rewrite EG in W. apply Forall_app in W. destruct W as [_ W]. inversion W as [|? ? [_ W1] _]; subst. lia.
      - rewrite CM in G. destruct m; try discriminate V; cbv zeta in G; destruct (write_moof _ _); discriminate. }
  pose proof G as G0. rewrite CM in G0. rewrite CD in G0.
  assert (B1: 88 + Z.of_nat (length (pairsOf d stale g)) * 16 + 8 < 4294967296) by (rewrite LP; unfold MAX_MDAT_SAMPLE in R2; lia).
  assert (B2: len (concat (map fst (pairsOf d stale g))) + 8 < 4294967296) by (rewrite FST; unfold MAX_DAT in R1; lia).
  assert (HP: cmoof c1 = ctrun c1) by (change (cmoof (gctx s) = ctrun (gctx s)); congruence).
  assert (HF: cflags c1 = runFlags m) by (unfold runFlags; rewrite V; exact (i_flags _ _ _ _ _ _ I)).
  destruct (demux_segment m c1 0 _ out c2 HP HF (eq_sym SND) (pairs_sizes d stale g) B1 B2 G0) as (DM & PF).
  destruct (segment_ctx _ _ _ _ _ _ G0) as (px & py & C2).
  exists (mkSegment out (cept c2) (cdur c2)), (context_refresh c2). split; [reflexivity|].
  assert (C3: cept c2 = startsAt g /\ cdur c2 = u32 (durOf g + (fpts nxt - fpts l))).
  { assert (E2: cept c2 = cept c1 /\ cdur c2 = cdur c1) by (rewrite C2; split; reflexivity).
    destruct E2 as (-> & ->). split; [exact F1|]. change (u32 (u32 (durOf g) + d) = u32 (durOf g + (fpts nxt - fpts l))).
    unfold d. rewrite u32_add_l, u32_add_r. reflexivity. }
  destruct C3 as (C3 & C4). split.
  - unfold isFragment. cbn [gbytes gstart gdur fbase faccess].
    change (cseq c1) with (cseq (gctx s)) in DM. change (cept c1) with (cept (gctx s)) in DM. rewrite F2, F1 in DM.
    rewrite (Z.mod_small (startsAt g)) in DM by (apply startsAt_wf, W).
    replace (u32 k mod 4294967296) with (k mod 4294967296) in DM by (symmetry; apply (u32_u32 k)).
    replace (map (accessOf m) (pairsOf d stale g)) with (accesses g nxt) in DM by (unfold d; rewrite EG, (pairs_accesses m nxt stale g' l V); reflexivity).
    split; [exact DM|]. split; [exact C3|]. split; [rewrite C4, EG, accesses_total; reflexivity|].
    eexists. split; [exact PF|]. split; [apply shape_segTree|]. split; [|apply constants_segTree].
    apply (index_segTree m c1 0 _ out c2 _ _ HP G0).
    + rewrite C3. apply startsAt_wf, W.
    + rewrite C2. reflexivity.
    + rewrite C2. reflexivity.
    + rewrite C4. apply Z.mod_pos_bound. lia.
    + rewrite len_moof. change (csamples c1) with (setLastDur d (samplesOf stale g)). rewrite setLast_length, samples_length, FST. unfold itemLen, MAX_DAT, MAX_MDAT_SAMPLE in *.
      rewrite V. lia.
  - assert (KM: cmedia c2 = m /\ cflags c2 = 3841 /\ ctarget c2 = T).
    { rewrite C2. split; [exact (i_media _ _ _ _ _ _ I)|]. split; [exact (i_flags _ _ _ _ _ _ I)|exact (i_target _ _ _ _ _ _ I)]. }
    destruct KM as (K1 & K2 & K3). constructor; cbn [gseq gctx].
    + rewrite (i_seq _ _ _ _ _ _ I), u32_add_l. reflexivity.
    + exact K1. + exact K2. + split; reflexivity. + exact K3. + reflexivity. + reflexivity. + intros X. congruence. + cbn. unfold MAX_DAT, MAX_MDAT_SAMPLE, len. cbn. lia.
Qed.

Lemma no_close m T stale g k s nxt : Inv m T stale g k s -> (g <> [] -> codeRule T g nxt = false) ->
  generate_video_segment (fintra nxt) (fpts nxt) (gctx s) = (None, gctx s).
Proof.
  intros I R. unfold generate_video_segment. rewrite (i_samples _ _ _ _ _ _ I). destruct g as [|g0 gr]; [reflexivity|].
  assert (N: g0 :: gr <> []) by discriminate. set (g := g0 :: gr) in *. destruct (lastPts_in g N) as (g' & l & EG). specialize (R N).
  destruct (i_first _ _ _ _ _ _ I N) as (_ & _ & F3).
  unfold codeRule in R. rewrite EG, lastPts_snoc, <- EG in R. rewrite EG, last_sample. cbn [spts]. rewrite <- EG.
  rewrite u32_sub_l, (i_target _ _ _ _ _ _ I), F3, u32_sub_r, u32_add_l, u32_add_r, R. reflexivity.
Qed.

Lemma add_first m T stale k s f : Inv m T stale [] k s -> wf f -> fintra f = true ->
  match add_video_sample (fbytes f) (fpts f) (fdts f) (gseq s) (fintra f) stale (gctx s) with
  | Refused => False
  | Added c => Inv m T stale [f] k (mkSeg c (gseq s))
  | Outside => True
  end.
Proof.
  intros I [W1 W2] H. unfold add_video_sample. destruct (Z.ltb_spec (len (fbytes f)) 1); [lia|].
  rewrite (i_samples _ _ _ _ _ _ I). cbn [samplesOf lastSample rev]. rewrite H. cbn [negb].
  destruct (fits (gctx s) (fbytes f)) eqn:F; cbn [negb]; [|exact Logic.I].
  unfold fits in F. apply andb_true_iff in F. destruct F as [F1 F2]. apply Z.leb_le in F1. apply Z.ltb_lt in F2.
  rewrite (i_data _ _ _ _ _ _ I) in *. cbn [map concat] in *. change (len []) with 0 in F1.
  destruct (i_pos _ _ _ _ _ _ I) as (P1 & P2).
  constructor; cbn [gseq gctx].
  - exact (i_seq _ _ _ _ _ _ I).
  - exact (i_media _ _ _ _ _ _ I).
  - exact (i_flags _ _ _ _ _ _ I).
  - split; [exact P1|exact P2].
  - exact (i_target _ _ _ _ _ _ I).
  - cbn [map concat withSegment cdata]. rewrite app_nil_r. reflexivity.
  - cbn [samplesOf withSegment csamples]. rewrite H. reflexivity.
  - intros _. cbn [withSegment cept cseq cdur startsAt durOf]. split; [reflexivity|]. split; [exact (i_seq _ _ _ _ _ _ I)|reflexivity].
  - cbn [map concat length]. rewrite app_nil_r. unfold MAX_MDAT_SAMPLE. lia.
Qed.
Lemma add_refused m T stale k s f : Inv m T stale [] k s -> wf f -> fintra f = false ->
  add_video_sample (fbytes f) (fpts f) (fdts f) (gseq s) (fintra f) stale (gctx s) = Refused.
Proof.
  intros I [W1 W2] H. unfold add_video_sample. destruct (Z.ltb_spec (len (fbytes f)) 1); [lia|].
  rewrite (i_samples _ _ _ _ _ _ I). cbn [samplesOf lastSample rev]. rewrite H. reflexivity.
Qed.
Lemma add_next m T stale g k s f : Inv m T stale g k s -> g <> [] -> wf f ->
  match add_video_sample (fbytes f) (fpts f) (fdts f) (gseq s) (fintra f) stale (gctx s) with
  | Refused => False
  | Added c => Inv m T stale (g ++ [f]) k (mkSeg c (gseq s))
  | Outside => True
  end.
Proof.
  intros I N [W1 W2]. unfold add_video_sample. destruct (Z.ltb_spec (len (fbytes f)) 1); [lia|].
  destruct (lastPts_in g N) as (g' & l & EG). destruct (i_first _ _ _ _ _ _ I N) as (F1 & F2 & F3).
  rewrite (i_samples _ _ _ _ _ _ I), EG, last_sample. cbn [sdts].
  destruct (fits (gctx s) (fbytes f)) eqn:F; cbn [negb]; [|exact Logic.I].
  unfold fits in F. apply andb_true_iff in F. destruct F as [G1 G2]. apply Z.leb_le in G1. apply Z.ltb_lt in G2.
  rewrite (i_samples _ _ _ _ _ _ I), samples_length in G2. rewrite (i_data _ _ _ _ _ _ I) in *.
  destruct (i_pos _ _ _ _ _ _ I) as (P1 & P2).
  assert (G': (g' ++ [l]) ++ [f] = g' ++ [l; f]) by (rewrite <- app_assoc; reflexivity).
  constructor; cbn [gseq gctx].
  - exact (i_seq _ _ _ _ _ _ I).
  - exact (i_media _ _ _ _ _ _ I).
  - exact (i_flags _ _ _ _ _ _ I).
  - split; [exact P1|exact P2].
  - exact (i_target _ _ _ _ _ _ I).
  - cbn [withSegment cdata]. rewrite EG, !map_app, !concat_app. cbn [map concat]. rewrite !app_nil_r. reflexivity.
  - cbn [withSegment csamples]. rewrite G', samples_snoc. reflexivity.
  - intros _. cbn [withSegment cept cseq cdur]. split; [|split; [exact F2|]].
    + rewrite F1, EG. destruct g'; reflexivity.
    + rewrite F3, G', EG. apply dur_snoc.
  - rewrite <- EG. rewrite map_app, concat_app, len_app, app_length. cbn [map concat length]. rewrite app_nil_r.
    unfold MAX_MDAT_SAMPLE in *. lia.
Qed.

Lemma noCut_nil rule : noCut rule [].
Proof. intros a f b E. destruct a; discriminate. Qed.
Lemma noCut_one rule f : noCut rule [f].
Proof. intros a x b E N. destruct a as [|y a]; [congruence|]. destruct a; discriminate. Qed.
Lemma noCut_snoc rule g f : noCut rule g -> (g <> [] -> rule g f = false) -> noCut rule (g ++ [f]).
Proof.
  intros H R a x b E N. destruct b as [|y b] using rev_ind.
  - apply app_inj_tail in E. destruct E as [-> ->]. auto.
  - clear IHb. change (a ++ x :: b ++ [y]) with (a ++ (x :: b) ++ [y]) in E. rewrite app_assoc in E. apply app_inj_tail in E. destruct E as [-> _].
    apply (H a x b); auto.
Qed.

Lemma run_segmented m T stale (V : isVideo m = true) : forall fs g k s segs s',
  Inv m T stale g k s -> g <> [] -> noCut (codeRule T) g -> Forall wf g -> Forall wf fs -> videoRun stale fs s = Some (segs, s') ->
  exists frs pend k', segmented (codeRule T) k (g ++ fs) frs pend /\ Forall2 isFragment segs frs /\ Inv m T stale pend k' s' /\ pend <> [].
Proof.
  induction fs as [|f fs IH]; intros g k s segs s' I N NC WG WF R.
  - cbn [videoRun] in R. injection R as <- <-. exists [], g, k. rewrite app_nil_r. split; [apply sg_end, NC|]. split; [constructor|]. split; [exact I|exact N].
  - apply Forall_cons_iff in WF. destruct WF as [Wf WF].
    assert (R' := R). cbn [videoRun] in R. unfold videoFrame in R.
    destruct (codeRule T g f) eqn:Q.
    + destruct (close_segment m T stale g k s f V I N WG Q) as (sg & c' & E1 & E2 & E3). rewrite E1 in R.
      assert (KF: fintra f = true) by (unfold codeRule in Q; apply andb_true_iff in Q; apply Q).
      pose proof (add_first m T stale (k + 1) _ f E3 Wf KF) as A. cbn [gseq gctx] in A.
      destruct (add_video_sample _ _ _ _ _ _ c') as [|c''|]; [destruct A| |discriminate].
      destruct (videoRun stale fs (mkSeg c'' (u32 (gseq s + 1)))) as [[os s2]|] eqn:RR; [|discriminate].
      injection R as <- <-.
      destruct (IH [f] (k + 1) _ _ _ A ltac:(discriminate) (noCut_one _ f) ltac:(constructor; [exact Wf|constructor]) WF RR) as (frs & pend & k' & S1 & S2 & S3 & S4).
      exists (mkFragment (k mod 4294967296) (startsAt g) (accesses g f) :: frs), pend, k'.
      split; [apply sg_cut; assumption|]. split; [constructor; assumption|]. split; assumption.
    + rewrite (no_close m T stale g k s f I (fun _ => Q)) in R.
      pose proof (add_next m T stale g k s f I N Wf) as A.
      destruct (add_video_sample _ _ _ _ _ _ (gctx s)) as [|c''|]; [destruct A| |discriminate].
      destruct (videoRun stale fs (mkSeg c'' (gseq s))) as [[os s2]|] eqn:RR; [|discriminate].
      injection R as <- <-.
      destruct (IH (g ++ [f]) k _ _ _ A ltac:(destruct g; discriminate) (noCut_snoc _ _ _ NC (fun _ => Q))
                  ltac:(apply Forall_app; split; [exact WG|constructor; [exact Wf|constructor]]) WF RR) as (frs & pend & k' & S1 & S2 & S3 & S4).
      exists frs, pend, k'. rewrite <- app_assoc in S1. cbn [app] in S1. split; [exact S1|]. split; [exact S2|]. split; assumption.
Qed.

Lemma run_from_start m T stale (V : isVideo m = true) : forall fs k s segs s',
  Inv m T stale [] k s -> Forall wf fs -> videoRun stale fs s = Some (segs, s') ->
  exists frs pend, segmented (codeRule T) k (kept fs) frs pend /\ Forall2 isFragment segs frs.
Proof.
  induction fs as [|f fs IH]; intros k s segs s' I WF R.
  - cbn [videoRun] in R. injection R as <- <-. exists [], []. split; [apply sg_end, noCut_nil|constructor].
  - apply Forall_cons_iff in WF. destruct WF as [Wf WF]. cbn [videoRun] in R. unfold videoFrame in R.
    rewrite (no_close m T stale [] k s f I) in R by congruence. cbn [kept]. destruct (fintra f) eqn:KF.
    + pose proof (add_first m T stale k s f I Wf KF) as A. rewrite KF in A.
      destruct (add_video_sample _ _ _ _ _ _ (gctx s)) as [|c''|]; [destruct A| |discriminate].
      destruct (videoRun stale fs (mkSeg c'' (gseq s))) as [[os s2]|] eqn:RR; [|discriminate].
      injection R as <- <-.
      destruct (run_segmented m T stale V fs [f] k _ _ _ A ltac:(discriminate) (noCut_one _ f) ltac:(constructor; [exact Wf|constructor]) WF RR)
        as (frs & pend & k' & S1 & S2 & _). exists frs, pend. split; assumption.
    + pose proof (add_refused m T stale k s f I Wf KF) as A. rewrite KF in A. rewrite A in R.
      destruct (videoRun stale fs (mkSeg (gctx s) (gseq s))) as [[os s2]|] eqn:RR; [|discriminate].
      injection R as <- <-. destruct s as [c0 q0]. cbn [gctx gseq] in RR. exact (IH k _ _ _ I WF RR).
Qed.

Lemma new_inv m w h tb secs junk stale s : isVideo m = true -> newVideo m w h tb secs junk = Some s -> Inv m (u32 (secs * tb)) stale [] 0 s.
Proof.
  intros V E. unfold newVideo, generate_context in E.
  destruct m; try discriminate V; injection E as <-;
    (constructor; cbn; try reflexivity; [split; reflexivity|congruence|unfold MAX_DAT, MAX_MDAT_SAMPLE, len; cbn; lia]).
Qed.

(** *** Play-back *)
Lemma accesses_play gap : forall g nxt t, regular gap (g ++ [nxt]) -> gap < 4294967296 -> g <> [] -> t = startsAt g ->
  playFrom t (accesses g nxt) = timeline (g ++ [nxt]).
Proof.
  induction g as [|f g IH]; intros nxt t R G N E; [congruence|]. cbn [app regular] in R. destruct R as (R1 & R2 & R3).
  cbn [accesses playFrom startsAt] in *. subst t. destruct g as [|f' g].
  - cbn [app] in R2. cbn [app timeline acomp adur abytes async accesses playFrom]. rewrite R1 in *. rewrite Z.sub_diag, Z.mod_0_l, Z.add_0_r by lia.
    rewrite Z.mod_small by lia. reflexivity.
  - cbn [app] in R2. cbn [app regular] in R3. pose proof R3 as R3'. destruct R3 as (R4 & _ & _).
    cbn [app]. change (timeline (f :: f' :: g ++ [nxt])) with (mkPlayed (fpts f) (fpts f' - fpts f) (fbytes f) (fintra f) :: timeline (f' :: g ++ [nxt])).
    cbn [acomp adur abytes async]. rewrite <- R1, <- R4. rewrite Z.sub_diag, Z.mod_0_l, Z.add_0_r by lia. rewrite Z.mod_small by lia. f_equal.
    replace (fpts f + (fpts f' - fpts f)) with (fpts f') by lia. apply (IH nxt (fpts f')); [exact R3'|exact G|discriminate|reflexivity].
Qed.
Lemma timeline_app g n r : timeline (g ++ n :: r) = timeline (g ++ [n]) ++ timeline (n :: r).
Proof.
  induction g as [|f g IH]; [reflexivity|]. destruct g as [|f' g].
  - reflexivity.
  - cbn [app] in *. change (timeline (f :: f' :: g ++ n :: r)) with (mkPlayed (fpts f) (fpts f' - fpts f) (fbytes f) (fintra f) :: timeline (f' :: g ++ n :: r)).
    rewrite IH. reflexivity.
Qed.
Lemma regular_app gap a b : regular gap (a ++ b) -> regular gap a /\ regular gap b.
Proof.
  induction a as [|f a IH]; [cbn; auto|]. cbn [app regular]. intros (R1 & R2 & R3). destruct (IH R3) as (A & B). split; [|exact B].
  split; [exact R1|]. split; [|exact A]. destruct a; [exact Logic.I|exact R2].
Qed.
Lemma segmented_play rule gap k fs frs pend : segmented rule k fs frs pend -> gap < 4294967296 -> regular gap fs ->
  timeline fs = concat (map play frs) ++ timeline pend.
Proof.
  induction 1 as [k pend NC|k g nxt rest frs pend N NC RU S IH]; intros G R; [reflexivity|].
  cbn [map concat]. unfold play at 1. cbn [fbase faccess]. rewrite timeline_app.
  assert (R': regular gap (g ++ [nxt])).
  { replace (g ++ nxt :: rest) with ((g ++ [nxt]) ++ rest) in R by (rewrite <- app_assoc; reflexivity). apply regular_app in R. apply R. }
  rewrite (accesses_play gap g nxt (startsAt g) R' G N eq_refl). rewrite <- app_assoc. f_equal. apply IH; [exact G|]. apply regular_app in R. apply R.
Qed.

(** *** The closing rule in exact arithmetic *)
Lemma segmented_rule rule1 rule2 (P : list vframe -> Prop) :
  (forall a b, P (a ++ b) -> P a /\ P b) -> (forall g f, g <> [] -> P (g ++ [f]) -> rule1 g f = rule2 g f) ->
  forall k fs frs pend, segmented rule1 k fs frs pend -> P fs -> segmented rule2 k fs frs pend.
Proof.
  intros PA E. induction 1 as [k pend NC|k g nxt rest frs pend N NC RU S IH]; intros HP.
  - constructor. intros a f b EQ NE. rewrite <- E; [apply (NC a f b EQ NE)|exact NE|]. subst pend.
    replace (a ++ f :: b) with ((a ++ [f]) ++ b) in HP by (rewrite <- app_assoc; reflexivity). apply PA in HP. apply HP.
  - constructor; [exact N| | |apply IH; apply PA in HP; apply HP].
    + intros a f b EQ NE. rewrite <- E; [apply (NC a f b EQ NE)|exact NE|]. subst g.
      replace ((a ++ f :: b) ++ nxt :: rest) with ((a ++ [f]) ++ b ++ nxt :: rest) in HP by (rewrite <- !app_assoc; reflexivity). apply PA in HP. apply HP.
    + rewrite <- E; [exact RU|exact N|]. replace (g ++ nxt :: rest) with ((g ++ [nxt]) ++ rest) in HP by (rewrite <- app_assoc; reflexivity).
      apply PA in HP. apply HP.
Qed.

Definition near (T : Z) (fs : list vframe) : Prop :=
  regular T fs /\ forall a b, In a fs -> In b fs -> fpts a - fpts b < 4294967296.
Lemma near_app T a b : near T (a ++ b) -> near T a /\ near T b.
Proof.
  intros (R & S). apply regular_app in R. destruct R as (R1 & R2).
  split; (split; [assumption|]; intros x y X Y; apply S; apply in_or_app; auto).
Qed.
Lemma regular_mono gap g l f : regular gap (g ++ [l; f]) -> startsAt (g ++ [l]) <= fpts l /\ fpts l <= fpts f <= fpts l + gap /\ fpts l = fdts l /\ fpts (hd l (g ++ [l])) = fdts (hd l (g ++ [l])).
Proof.
  induction g as [|x g IH].
  - cbn. intros (A & B & C & _). repeat split; try lia; auto.
  - cbn [app regular]. intros (A & B & C). destruct (IH C) as (D & E & F & G). split; [|split; [exact E|split; [exact F|exact A]]].
    cbn [startsAt]. destruct g as [|y g]; cbn [app startsAt] in *; lia.
Qed.
Lemma rule_exact T g f : 0 <= T < 4294967296 -> g <> [] -> near T (g ++ [f]) -> codeRule T g f = within T g f.
Proof.
  intros B N (R & S). destruct (lastPts_in g N) as (g' & l & ->). rewrite <- app_assoc in R. cbn [app] in R.
  destruct (regular_mono _ _ _ _ R) as (M1 & M2 & M3 & M4). unfold codeRule, within. rewrite lastPts_snoc. f_equal.
  rewrite <- u32_add_l, dur_telescope, u32_add_l, <- M3, <- M4.
  assert (H: startsAt (g' ++ [l]) = fpts (hd l (g' ++ [l]))) by (destruct g'; reflexivity). rewrite <- H.
  assert (IN: In (hd l (g' ++ [l])) ((g' ++ [l]) ++ [f])) by (destruct g'; cbn; auto).
  specialize (S f _ ltac:(apply in_or_app; right; left; reflexivity) IN). rewrite <- H in S.
  unfold u32. rewrite !Z.mod_small by lia. f_equal. lia.
Qed.

(** *** Audio *)
Definition awf (f : aframe) : Prop := 1 <= len (abuf f).
Definition asampleOf (dur : Z) (f : aframe) : sample := mkSample (len (abuf f)) dur (u32 (apts f)) true (u32 (apts f)).
Record AInv (T dur : Z) (g : list aframe) (k : Z) (s : segmenter) : Prop := {
  a_seq : gseq s = u32 k;
  a_flags : cflags (gctx s) = 769;
  a_pos : cmoof (gctx s) = 0 /\ ctrun (gctx s) = 0;
  a_target : ctarget (gctx s) = T;
  a_data : cdata (gctx s) = concat (map abuf g);
  a_samples : csamples (gctx s) = map (asampleOf dur) g;
  a_first : g <> [] -> cept (gctx s) = match g with [] => 0 | f :: _ => u32 (apts f) end /\ cseq (gctx s) = u32 k;
  a_dur : cdur (gctx s) = u32 (Z.of_nat (length g) * dur);
  a_room : len (concat (map abuf g)) <= MAX_DAT /\ Z.of_nat (length g) <= MAX_MDAT_SAMPLE
}.

Lemma add_audio T dur g k s f : AInv T dur g k s -> awf f -> 1 <= dur ->
  match addAudio dur f s with
  | Some s' => AInv T dur (g ++ [f]) k s'
  | None => True
  end.
Proof.
  intros I W D. unfold addAudio, add_audio_sample. unfold awf in W. destruct (Z.ltb_spec (len (abuf f)) 1); [lia|]. destruct (Z.ltb_spec dur 1); [lia|].
  destruct (fits (gctx s) (abuf f)) eqn:F; cbn [negb]; [|exact Logic.I].
  unfold fits in F. apply andb_true_iff in F. destruct F as [G1 G2]. apply Z.leb_le in G1. apply Z.ltb_lt in G2.
  rewrite (a_samples _ _ _ _ _ I), map_length in G2. rewrite (a_data _ _ _ _ _ I) in G1. destruct (a_pos _ _ _ _ _ I) as (P1 & P2).
  constructor; cbn [gseq gctx].
  - exact (a_seq _ _ _ _ _ I).
  - exact (a_flags _ _ _ _ _ I).
  - split; [exact P1|exact P2].
  - exact (a_target _ _ _ _ _ I).
  - cbn [withSegment cdata]. rewrite (a_data _ _ _ _ _ I), map_app, concat_app. cbn [map concat]. rewrite app_nil_r. reflexivity.
  - cbn [withSegment csamples]. rewrite (a_samples _ _ _ _ _ I), map_app. reflexivity.
  - intros _. cbn [withSegment cept cseq]. rewrite (a_samples _ _ _ _ _ I). destruct g as [|x g].
    + cbn. split; [reflexivity|exact (a_seq _ _ _ _ _ I)].
    + cbn [map app]. apply (a_first _ _ _ _ _ I). discriminate.
  - cbn [withSegment cdur]. rewrite (a_dur _ _ _ _ _ I), u32_add_l, app_length. cbn [length]. f_equal. lia.
  - rewrite map_app, concat_app, len_app, app_length. cbn [map concat length]. rewrite app_nil_r. unfold MAX_MDAT_SAMPLE in *. lia.
Qed.

Lemma apairs dur g : map fst (map (fun f => (abuf f, asampleOf dur f)) g) = map abuf g /\
  map snd (map (fun f => (abuf f, asampleOf dur f)) g) = map (asampleOf dur) g.
Proof. rewrite !map_map. split; reflexivity. Qed.

Lemma cut_audio T dur g k s force : AInv T dur g k s -> Forall awf g -> 1 <= dur < 65536 ->
  match g with [] => False | _ => force || (T <=? Z.of_nat (length g) * dur) = true end ->
  exists sg s', cutAudio force s = (Some sg, s') /\ isFragment sg (audioFragment dur k g) /\ AInv T dur [] (k + 1) s'.
Proof.
  intros I W D R. destruct (a_room _ _ _ _ _ I) as (R1 & R2). destruct (a_pos _ _ _ _ _ I) as (P1 & P2).
  assert (N: g <> []) by (destruct g; [destruct R|discriminate]). destruct (a_first _ _ _ _ _ I N) as (F1 & F2).
  assert (DU: u32 (Z.of_nat (length g) * dur) = Z.of_nat (length g) * dur) by (unfold u32; apply Z.mod_small; unfold MAX_MDAT_SAMPLE in R2; nia).
  unfold cutAudio, generate_audio_segment. rewrite (a_target _ _ _ _ _ I), (a_dur _ _ _ _ _ I), DU.
  replace (force || (T <=? Z.of_nat (length g) * dur)) with true by (destruct g; [destruct R|symmetry; exact R]).
  set (c := gctx s) in *. set (ps := map (fun f => (abuf f, asampleOf dur f)) g).
  destruct (apairs dur g) as (FST & SND). fold ps in FST, SND.
  assert (CD: cdata c = concat (map fst ps)) by (rewrite FST; exact (a_data _ _ _ _ _ I)).
  assert (LP: length ps = length g) by (unfold ps; apply map_length).
  destruct (segmentGenerator (cdata c) AUDIO c 0) as [[out c2]|] eqn:G.
  2:{ exfalso. unfold segmentGenerator in G. destruct (Z.ltb_spec (len (cdata c)) 1) as [X|_].
      - rewrite CD, FST in X. destruct g as [|x g]; [congruence|]. cbn [map concat] in X. rewrite len_app in X. inversion W as [|? ? W1 _]; subst. unfold awf in W1.
        pose proof (len_nonneg (concat (map abuf g))). lia.
      - cbv zeta in G. destruct (write_moof _ _); discriminate. }
  rewrite CD in G.
  assert (B1: 88 + Z.of_nat (length ps) * 16 + 8 < 4294967296) by (rewrite LP; unfold MAX_MDAT_SAMPLE in R2; lia).
  assert (B2: len (concat (map fst ps)) + 8 < 4294967296) by (rewrite FST; unfold MAX_DAT in R1; lia).
  assert (SZ: Forall (fun p => ssize (snd p) = len (fst p)) ps).
  { unfold ps. apply Forall_forall. intros p IP. apply in_map_iff in IP. destruct IP as (f & <- & _). reflexivity. }
  assert (HP: cmoof c = ctrun c) by congruence.
  assert (HF: cflags c = runFlags AUDIO) by exact (a_flags _ _ _ _ _ I).
  assert (HS: csamples c = map snd ps) by (rewrite SND; exact (a_samples _ _ _ _ _ I)).
  destruct (demux_segment AUDIO c 0 ps out c2 HP HF HS SZ B1 B2 G) as (DM & PF).
  destruct (segment_ctx _ _ _ _ _ _ G) as (px & py & C2).
  eexists (mkSegment out (cept c2) (cdur c2)), _. split; [reflexivity|].
  assert (C3: cept c2 = cept c /\ cdur c2 = cdur c) by (rewrite C2; split; reflexivity). destruct C3 as (C3 & C4).
  assert (AC: map (accessOf AUDIO) ps = map (audioAccess dur) g).
  { unfold ps. rewrite map_map. apply map_ext. intros f. unfold accessOf, audioAccess, asampleOf. cbn. rewrite Z.mod_small by lia. reflexivity. }
  split.
  - unfold isFragment. cbn [gbytes gstart gdur]. rewrite F2, F1, AC in DM.
    assert (EQ: mkFragment (u32 k mod 4294967296) (match g with [] => 0 | f :: _ => u32 (apts f) end mod 18446744073709551616) (map (audioAccess dur) g) = audioFragment dur k g).
    { unfold audioFragment. f_equal; [apply (u32_u32 k)|]. destruct g as [|x g]; [reflexivity|]. unfold u32. apply Z.mod_small.
      pose proof (Z.mod_pos_bound (apts x) 4294967296 ltac:(lia)). lia. }
    rewrite EQ in DM. split; [exact DM|]. split; [|split].
    + rewrite C3, F1. destruct g; reflexivity.
    + rewrite C4; unfold c; rewrite (a_dur _ _ _ _ _ I). unfold audioFragment. cbn [faccess]. unfold u32. f_equal.
      clear. induction g as [|x g IH]; [reflexivity|]. cbn [map totalOf fold_right length audioAccess adur]. fold (totalOf (map (audioAccess dur) g)). rewrite <- IH. lia.
    + eexists. split; [exact PF|]. split; [apply shape_segTree|]. split; [|apply constants_segTree].
      apply (index_segTree AUDIO c 0 _ out c2 _ _ HP G).
      * rewrite C3, F1. destruct g as [|x g]; [lia|]. pose proof (Z.mod_pos_bound (apts x) 4294967296 ltac:(lia)). unfold u32. lia.
      * rewrite C2. reflexivity.
      * rewrite C2. reflexivity.
      * rewrite C4. unfold c. rewrite (a_dur _ _ _ _ _ I). apply Z.mod_pos_bound. lia.
      * rewrite len_moof, HS, map_length, LP, FST. unfold itemLen, MAX_DAT, MAX_MDAT_SAMPLE in *. cbn [isVideo]. lia.
  - rewrite C2. constructor; cbn [gseq gctx].
    + rewrite (a_seq _ _ _ _ _ I), u32_add_l. reflexivity.
    + exact (a_flags _ _ _ _ _ I). + split; reflexivity. + exact (a_target _ _ _ _ _ I). + reflexivity. + reflexivity. + congruence. + reflexivity.
    + cbn. unfold MAX_DAT, MAX_MDAT_SAMPLE, len. cbn. lia.
Qed.
Lemma cut_audio_not T dur g k s force : AInv T dur g k s -> 1 <= dur < 65536 ->
  match g with [] => True | _ => force || (T <=? Z.of_nat (length g) * dur) = false end -> 
  exists s', cutAudio force s = (None, s') /\ AInv T dur g k s'.
Proof.
  intros I D R. destruct (a_room _ _ _ _ _ I) as (R1 & R2).
  assert (DU: u32 (Z.of_nat (length g) * dur) = Z.of_nat (length g) * dur) by (unfold u32; apply Z.mod_small; unfold MAX_MDAT_SAMPLE in R2; nia).
  unfold cutAudio, generate_audio_segment. rewrite (a_target _ _ _ _ _ I), (a_dur _ _ _ _ _ I), DU.
  assert (K: AInv T dur g k (mkSeg (gctx s) (gseq s))) by (destruct s; exact I).
  destruct g as [|x g].
  - destruct (force || _); [|eauto]. unfold segmentGenerator. rewrite (a_data _ _ _ _ _ I). cbn [map concat]. change (len [] <? 1) with true. cbn match. eauto.
  - rewrite R. eauto.
Qed.

Lemma audio_run T dur : 1 <= dur < 65536 -> forall ops g k s segs s', AInv T dur g k s -> Forall awf g -> Forall awf (audioFrames ops) ->
  audioRun dur ops s = Some (segs, s') -> Forall2 isFragment segs (audioSegments dur T k g ops).
Proof.
  intros D. induction ops as [|o ops IH]; intros g k s segs s' I WG WF R.
  - cbn [audioRun] in R. injection R as <- <-. constructor.
  - destruct o as [f|force]; cbn [audioRun audioSegments] in *.
    + cbn [audioFrames flat_map app] in WF. apply Forall_cons_iff in WF. destruct WF as [Wf WF].
      pose proof (add_audio T dur g k s f I Wf ltac:(lia)) as A. destruct (addAudio dur f s) as [s1|]; [|discriminate].
      refine (IH _ _ _ _ _ A _ _ R); [apply Forall_app; split; [exact WG|constructor; [exact Wf|constructor]]|exact WF].
    + cbn [audioFrames flat_map app] in WF. destruct g as [|x g].
      * destruct (cut_audio_not T dur [] k s force I D Logic.I) as (s1 & E & I1). rewrite E in R.
        destruct (audioRun dur ops s1) as [[os s2]|] eqn:RR; [|discriminate]. injection R as <- <-. cbn [app]. apply (IH _ _ _ _ _ I1 WG WF RR).
      * destruct (force || (T <=? Z.of_nat (length (x :: g)) * dur)) eqn:Q.
        -- destruct (cut_audio T dur (x :: g) k s force I WG D Q) as (sg & s1 & E & FR & I1). rewrite E in R.
           destruct (audioRun dur ops s1) as [[os s2]|] eqn:RR; [|discriminate]. injection R as <- <-. cbn [app].
           constructor; [exact FR|]. apply (IH _ _ _ _ _ I1 (Forall_nil _) WF RR).
        -- destruct (cut_audio_not T dur (x :: g) k s force I D Q) as (s1 & E & I1). rewrite E in R.
           destruct (audioRun dur ops s1) as [[os s2]|] eqn:RR; [|discriminate]. injection R as <- <-. cbn [app]. apply (IH _ _ _ _ _ I1 WG WF RR).
Qed.
Lemma new_audio_inv ch sr bits n secs junk s : newAudio ch sr bits n secs junk = Some s -> AInv (u32 (secs * sr)) (n) [] 0 s.
Proof.
  intros E. unfold newAudio, generate_context in E. injection E as <-.
  constructor; cbn; try reflexivity; [split; reflexivity|congruence|unfold MAX_DAT, MAX_MDAT_SAMPLE, len; cbn; lia].
Qed.

(** *** The clock of the index *)
Definition opens (tb : Z) (g : segment) : Prop := exists c r rest, gbytes g = write_styp ++ write_sidx c r ++ rest /\ ctimebase c = tb.
Lemma segment_opens src m c r0 out c' st du : segmentGenerator src m c r0 = Some (out, c') ->
  opens (ctimebase c) (mkSegment out st du) /\ ctimebase c' = ctimebase c.
Proof.
  intros G. destruct (segment_ctx _ _ _ _ _ _ G) as (x & y & E).
  unfold segmentGenerator in G. destruct (len src <? 1); [discriminate|].
  split; [|rewrite E; reflexivity].
  assert (W: forall k d1 d2, exists b x y, write_moof k (addPos c d1 d2) = (b, addPos c x y)).
  { intros k d1 d2. unfold write_moof, write_traf. cbv zeta. rewrite !addPos_twice. eexists _, _, _. reflexivity. }
  destruct m; try discriminate; cbv zeta in G;
    match type of G with context [write_moof ?k (addPos c ?d1 ?d2)] => destruct (W k d1 d2) as (b & x' & y' & EQ); rewrite EQ in G end;
    apply some_pair2 in G as G2; apply (f_equal (option_map fst)) in G; cbn [option_map fst] in G; injection G as G;
    eexists _, _, _; (split; [cbn [gbytes]; symmetry; exact G|reflexivity]).
Qed.
Lemma video_frame_opens stale f s o s' : videoFrame stale f s = Some (o, s') ->
  ctimebase (gctx s') = ctimebase (gctx s) /\ (forall g, o = Some g -> opens (ctimebase (gctx s)) g).
Proof.
  unfold videoFrame. destruct (generate_video_segment (fintra f) (fpts f) (gctx s)) as [o1 c] eqn:E. intros H.
  assert (K: ctimebase c = ctimebase (gctx s) /\ (forall g, o1 = Some g -> opens (ctimebase (gctx s)) g)).
  { clear H. unfold generate_video_segment in E. destruct (lastSample (csamples (gctx s))) as [l|]; [|injection E as <- <-; split; [reflexivity|discriminate]].
    destruct (fintra f && _); [|injection E as <- <-; split; [reflexivity|discriminate]].
    match type of E with context [segmentGenerator ?a ?b ?c1 ?d] => destruct (segmentGenerator a b c1 d) as [[out c2]|] eqn:G end; injection E as <- <-; [|split; [reflexivity|discriminate]].
    destruct (segment_opens _ _ _ _ _ _ (cept c2) (cdur c2) G) as (A & B). split; [exact B|]. intros g [= <-]. exact A. }
  destruct K as (K1 & K2).
  destruct (add_video_sample _ _ _ _ _ _ c) as [|c3|] eqn:A; [| |discriminate]; injection H as <- <-; (split; [|exact K2]); cbn [gctx]; [exact K1|].
  rewrite <- K1. unfold add_video_sample in A. destruct (len (fbytes f) <? 1); [discriminate|]. destruct (lastSample (csamples c)) as [p|].
  - destruct (negb (fits c (fbytes f))); [discriminate|]. injection A as <-. reflexivity.
  - destruct (negb (fintra f)); [discriminate|]. destruct (negb (fits c (fbytes f))); [discriminate|]. injection A as <-. reflexivity.
Qed.
Lemma video_run_opens stale : forall fs s segs s', videoRun stale fs s = Some (segs, s') -> Forall (opens (ctimebase (gctx s))) segs.
Proof.
  induction fs as [|f r IH]; intros s segs s' H; cbn [videoRun] in H; [injection H as <- <-; constructor|].
  destruct (videoFrame stale f s) as [[o s1]|] eqn:F; [|discriminate]. destruct (video_frame_opens _ _ _ _ _ F) as (K & O).
  destruct (videoRun stale r s1) as [[os s2]|] eqn:R; [|discriminate]. injection H as <- <-. pose proof (IH _ _ _ R) as X. rewrite K in X.
  destruct o as [g|]; [constructor; [apply O; reflexivity|exact X]|exact X].
Qed.
Lemma audio_run_opens dur : forall ops s segs s', audioRun dur ops s = Some (segs, s') -> Forall (opens (ctimebase (gctx s))) segs.
Proof.
  induction ops as [|[f|b] r IH]; intros s segs s' H; cbn [audioRun] in H; [injection H as <- <-; constructor| |].
  - destruct (addAudio dur f s) as [s1|] eqn:A; [|discriminate]. pose proof (IH _ _ _ H) as X.
    replace (ctimebase (gctx s)) with (ctimebase (gctx s1)); [exact X|]. clear - A. unfold addAudio, add_audio_sample in A.
    destruct (len (abuf f) <? 1); [injection A as <-; reflexivity|]. destruct (dur <? 1); [injection A as <-; reflexivity|].
    destruct (negb _); [discriminate|]. injection A as <-. reflexivity.
  - destruct (cutAudio b s) as [o s1] eqn:C. destruct (audioRun dur r s1) as [[os s2]|] eqn:R; [|discriminate]. injection H as <- <-.
    pose proof (IH _ _ _ R) as X. clear IH R.
    assert (K: ctimebase (gctx s1) = ctimebase (gctx s) /\ (forall g, o = Some g -> opens (ctimebase (gctx s)) g)).
    { unfold cutAudio, generate_audio_segment in C. destruct (b || _).
      - destruct (segmentGenerator (cdata (gctx s)) AUDIO (gctx s) 0) as [[out c2]|] eqn:G; injection C as <- <-; [|split; [reflexivity|discriminate]].
        destruct (segment_opens _ _ _ _ _ _ (cept c2) (cdur c2) G) as (A & B). split; [exact B|]. intros g [= <-]. exact A.
      - injection C as <- <-. split; [reflexivity|discriminate]. }
    destruct K as (K & O). rewrite K in X. destruct o as [g|]; [constructor; [apply O; reflexivity|exact X]|exact X].
Qed.
Lemma opens_clock tb g bs : opens tb g -> 0 <= tb < 4294967296 -> parseFile (gbytes g) = Some bs -> field bs ["sidx"]%string 8 4 = Some tb.
Proof.
  intros (c & r & rest & E & T) B P. unfold parseFile in P. rewrite E in P.
  assert (L: exists f, length (write_styp ++ write_sidx c r ++ rest) = S (S f)).
  { rewrite app_length. change (length write_styp) with 28%nat. eexists. reflexivity. }
  destruct L as (f & L). rewrite L in P. clear L E.
  unfold write_styp, sized in P. rewrite app3_assoc in P. rewrite parse_step in P by (reflexivity || (cbn; lia)).
  change (headerOf (tag "styp")) with (@None nat) in P. cbv iota in P.
  unfold write_sidx, counted in P. rewrite app3_assoc in P.
  rewrite parse_step in P by (reflexivity || (rewrite !len_app, !len_be; cbn; lia)).
  change (headerOf (tag "sidx")) with (@None nat) in P. cbv iota in P.
  destruct (parseBoxes f rest) as [tl|]; [|discriminate]. injection P as <-.
  change (Some (rd (be 4 (ctimebase c))) = Some tb). rewrite T. f_equal. apply rd_be_id. exact B.
Qed.
