(** C22 and C23: media segments and segmentation. *)
From Coq Require Import String.
From Verif Require Import Base Bytes IsoModel IsoSpec IsoProofs DashModel DashSpec DashProofs.
Local Open Scope list_scope.
Local Open Scope Z_scope.

(** The pictures handed to the segmenter: not empty, times are 64 bit numbers. *)
Definition pictures (fs : list vframe) : Prop := Forall wf fs.

(** C22. For every stream of pictures, whatever their bytes, times and key frame flags, and whatever
    the memory held: the segments given out are, one by one, complete ISO fragments that hold
    consecutive groups of the pictures from the first key frame on. Every picture is in exactly one
    segment or still pending, in order, with its bytes, key frame flag, composition offset and duration;
    every group ends before a key frame; the segments are numbered 0, 1, 2, ... and announce the
    presentation time of their first picture and the sum of the durations. *)
Theorem segments_hold_the_pictures m w h tb secs junk stale fs s segs s' :
  isVideo m = true -> newVideo m w h tb secs junk = Some s -> pictures fs -> videoRun stale fs s = Some (segs, s') ->
  exists rule frs pend,
    (forall g f, rule g f = true -> fintra f = true) /\
    segmented rule 0 (kept fs) frs pend /\ Forall2 isFragment segs frs.
Proof.
  intros V N P R. destruct (run_from_start m _ stale V fs 0 s segs s' (new_inv m w h tb secs junk stale s V N) P R) as (frs & pend & S & F).
  exists (codeRule (u32 (secs * tb))), frs, pend. split; [|split; assumption].
  intros g f E. unfold codeRule in E. apply andb_true_iff in E. apply E.
Qed.

(** C23. Every segment starts with a key frame. *)
Lemma kept_key fs f r : kept fs = f :: r -> fintra f = true.
Proof. induction fs as [|x fs IH]; [discriminate|]. cbn [kept]. destruct (fintra x) eqn:E; [|exact IH]. intros H. injection H as <- _. exact E. Qed.
Lemma segmented_keys rule k fs frs pend : (forall g f, rule g f = true -> fintra f = true) -> segmented rule k fs frs pend ->
  (forall f r, fs = f :: r -> fintra f = true) ->
  Forall (fun fr => exists a r, faccess fr = a :: r /\ async a = true) frs.
Proof.
  intros HR. induction 1 as [k pend NC|k g nxt rest frs pend N NC RU S IH]; intros H; [constructor|].
  constructor; [|apply IH; intros f r E; injection E as <- _; apply (HR _ _ RU)].
  destruct g as [|f g]; [congruence|]. cbn [faccess accesses]. eexists _, _. split; [reflexivity|]. cbn [async]. apply (H f (g ++ nxt :: rest)). reflexivity.
Qed.
Theorem segments_start_with_key_frames m w h tb secs junk stale fs s segs s' g :
  isVideo m = true -> newVideo m w h tb secs junk = Some s -> pictures fs -> videoRun stale fs s = Some (segs, s') -> In g segs ->
  exists fr a r, demux (gbytes g) = Some fr /\ faccess fr = a :: r /\ async a = true.
Proof.
  intros V N P R IN. destruct (segments_hold_the_pictures m w h tb secs junk stale fs s segs s' V N P R) as (rule & frs & pend & HR & S & F).
  pose proof (segmented_keys rule 0 _ frs pend HR S (kept_key fs)) as K.
  clear R S. induction F as [|g0 fr0 segs frs [D _] F IH]; [destruct IN|]. apply Forall_cons_iff in K. destruct K as [K0 K].
  destruct IN as [<-|IN]; [|apply IH; assumption]. destruct K0 as (a & r & K1 & K2). exists fr0, a, r. split; [exact D|]. split; assumption.
Qed.

(** C23. Time is conserved: if the pictures are decoded in presentation order at non-decreasing
    times, less than 2^32 units apart, then playing the segments one after the other gives exactly the
    time line of the pictures - each at its own time, lasting until the next one, no gap or overlap
    between segments - up to the pictures still pending. *)
Theorem segments_are_contiguous_partial m w h tb secs junk stale fs s segs s' :
  isVideo m = true -> newVideo m w h tb secs junk = Some s -> pictures fs -> regular 4294967295 (kept fs) ->
  videoRun stale fs s = Some (segs, s') ->
  exists frs pend, Forall2 isFragment segs frs /\ (exists front, kept fs = front ++ pend) /\
    timeline (kept fs) = concat (map play frs) ++ timeline pend.
Proof.
  intros V N P RG R. destruct (segments_hold_the_pictures m w h tb secs junk stale fs s segs s' V N P R) as (rule & frs & pend & HR & S & F).
  exists frs, pend. split; [exact F|]. split; [|apply (segmented_play rule 4294967295 0 _ _ _ S ltac:(lia) RG)].
  clear -S. induction S as [k pend NC|k g nxt rest frs pend N NC RU S [front IH]]; [exists []; reflexivity|].
  exists (g ++ front). rewrite <- app_assoc, <- IH. reflexivity.
Qed.

(** C23. When pictures are never further apart than the target duration and no segment grows to 2^32
    units, a segment is closed exactly before the first key frame at which it would last the
    target duration less the duration of its last picture. *)
Theorem segments_close_on_time_partial m w h tb secs junk stale fs s segs s' :
  isVideo m = true -> newVideo m w h tb secs junk = Some s -> pictures fs -> videoRun stale fs s = Some (segs, s') ->
  0 <= secs * tb < 4294967296 -> regular (secs * tb) (kept fs) ->
  (forall a b, In a fs -> In b fs -> fpts a - fpts b < 4294967296) ->
  exists frs pend, segmented (within (secs * tb)) 0 (kept fs) frs pend /\ Forall2 isFragment segs frs.
Proof.
  intros V N P R B RG SP. destruct (run_from_start m _ stale V fs 0 s segs s' (new_inv m w h tb secs junk stale s V N) P R) as (frs & pend & S & F).
  exists frs, pend. split; [|exact F].
  assert (T: u32 (secs * tb) = secs * tb) by (apply Z.mod_small; exact B). rewrite T in S.
  apply (segmented_rule (codeRule (secs * tb)) (within (secs * tb)) (near (secs * tb)) (near_app _) (fun g f => rule_exact _ g f B) 0 _ _ _ S).
  split; [exact RG|]. intros a b A1 B1.
  assert (SUB: forall x, In x (kept fs) -> In x fs).
  { clear. induction fs as [|f fs IH]; intros x X; [exact X|]. cbn [kept] in X. destruct (fintra f); [exact X|]. right. apply IH, X. }
  apply SP; apply SUB; assumption.
Qed.

(** So every closed segment lasts at least the target less one picture. *)
Theorem segments_nearly_last_the_target T k fs frs pend fr :
  segmented (within T) k fs frs pend -> regular T fs -> T < 4294967296 -> In fr frs ->
  exists front last, faccess fr = front ++ [last] /\ T <= totalOf (faccess fr) + adur last.
Proof.
  intros S RG TB. induction S as [k pend NC|k g nxt rest frs pend N NC RU S IH]; intros IN; [destruct IN|].
  assert (RS: regular T (g ++ [nxt]) /\ regular T (nxt :: rest)).
  { split; [|apply regular_app in RG; apply RG]. replace (g ++ nxt :: rest) with ((g ++ [nxt]) ++ rest) in RG by (rewrite <- app_assoc; reflexivity).
    apply regular_app in RG. apply RG. }
  destruct RS as (R1 & R2). destruct IN as [<-|IN]; [|apply IH; assumption].
  destruct (lastPts_in g N) as (g' & l & ->). unfold within in RU. apply andb_true_iff in RU. destruct RU as [_ RU]. apply Z.leb_le in RU. rewrite lastPts_snoc in RU.
  cbn [faccess]. clear IH S NC RG N.
  assert (A: exists front, accesses (g' ++ [l]) nxt = front ++ [mkAccess (fbytes l) ((fpts nxt - fpts l) mod 4294967296) ((fpts l - fdts l) mod 4294967296) (fintra l)]).
  { clear. induction g' as [|x g IH]; [exists []; reflexivity|]. destruct IH as (fr & IH). cbn [app accesses]. rewrite IH. eexists (_ :: fr). reflexivity. }
  destruct A as (front & A). exists front. eexists. split; [exact A|].
  assert (TO: totalOf (accesses (g' ++ [l]) nxt) = fpts nxt - startsAt (g' ++ [l])).
  { clear -R1 TB. rewrite <- app_assoc in R1. cbn [app] in R1. induction g' as [|x g IH].
    - cbn [app regular] in R1. destruct R1 as (_ & R1 & _). cbn. rewrite Z.mod_small by lia. lia.
    - cbn [app regular] in R1. destruct R1 as (RA & RB & RC). specialize (IH RC). cbn [app accesses totalOf fold_right adur startsAt].
      fold (totalOf (accesses (g ++ [l]) nxt)). rewrite IH. destruct g as [|y g].
      + cbn [app regular startsAt] in *. destruct RC as (RC & _). rewrite Z.mod_small by lia. lia.
      + cbn [app regular startsAt] in *. destruct RC as (RC & _). rewrite Z.mod_small by lia. lia. }
  rewrite TO. cbn [adur]. rewrite <- app_assoc in R1. cbn [app] in R1. destruct (regular_mono _ _ _ _ R1) as (_ & M & _). rewrite Z.mod_small by lia. lia.
Qed.

(** *** What does not hold *)

Definition pic (pts : Z) (k : bool) : vframe := mkVFrame [7] pts pts k.

(** The target duration is not always reached: a target of 10 and key frames every 6 units give a
    segment of 6 units. *)
Theorem target_not_reached_refuted : exists s fs segs s' g,
  newVideo VIDEO_AVC 640 480 1 10 0 = Some s /\ pictures fs /\ regular 10 fs /\ videoRun 0 fs s = Some (segs, s') /\ In g segs /\ gdur g = 6.
Proof.
  destruct (newVideo VIDEO_AVC 640 480 1 10 0) as [s|] eqn:E; [|discriminate].
  assert (R: exists segs s', videoRun 0 [pic 0 true; pic 6 true; pic 12 true] s = Some (segs, s') /\ map gdur segs = [6; 6]).
  { injection E as <-. eexists _, _. split; [vm_compute; reflexivity|]. reflexivity. }
  destruct R as (segs & s' & R & M). destruct segs as [|g segs]; [discriminate|]. cbn [map] in M.
  exists s, [pic 0 true; pic 6 true; pic 12 true], (g :: segs), s', g. split; [reflexivity|].
  split; [repeat constructor; cbn; try lia; unfold len; cbn; lia|]. split; [cbn; repeat split; lia|]. split; [exact R|]. split; [left; reflexivity|]. congruence.
Qed.

(** A stream whose pictures are further apart than the target never gives a segment: the unsigned
    difference wraps round. For every number of key frames. *)
Fixpoint slow (t : Z) (n : nat) : list vframe := match n with O => [] | S m => pic t true :: slow (t + 100) m end.
Lemma slow_wf n : forall t, 0 <= t -> t + 100 * Z.of_nat n < 4294967296 -> Forall wf (slow t n).
Proof.
  induction n as [|n IH]; intros t T B; [constructor|]. cbn [slow]. constructor; [|apply IH; lia]. split; [cbn; lia|]. unfold len. cbn. lia.
Qed.
Lemma slow_dur n : forall t, u32 (durOf (slow t (S n))) = u32 (100 * Z.of_nat n).
Proof.
  induction n as [|n IH]; intros t; [reflexivity|]. change (durOf (slow t (S (S n)))) with (u32 (t + 100 - t) + durOf (slow (t + 100) (S n))).
  rewrite u32_add_l, <- u32_add_r, IH, u32_add_r. f_equal. lia.
Qed.
Lemma slow_last n : forall t, lastPts (slow t (S n)) = t + 100 * Z.of_nat n.
Proof.
  induction n as [|n IH]; intros t; [cbn; lia|]. unfold lastPts. change (slow t (S (S n))) with (pic t true :: slow (t + 100) (S n)). cbn [rev].
  specialize (IH (t + 100)). unfold lastPts in IH. destruct (rev (slow (t + 100) (S n))) as [|x r] eqn:E.
  - apply (f_equal (@List.length vframe)) in E. rewrite rev_length in E. discriminate.
  - cbn [app]. rewrite IH. lia.
Qed.
Lemma slow_app n : forall t m, slow t (n + m) = slow t n ++ slow (t + 100 * Z.of_nat n) m.
Proof.
  induction n as [|n IH]; intros t m; [cbn [slow app Nat.add]; f_equal; lia|]. cbn [slow app Nat.add]. rewrite IH. f_equal. f_equal. f_equal. lia.
Qed.
Lemma slow_nocut n : 100 * Z.of_nat n < 4294967000 -> forall frs pend, segmented (codeRule 10) 0 (slow 0 n) frs pend -> frs = [].
Proof.
  intros B frs pend SG. inversion SG as [k p NC E1 E2 E3 E4|k g nxt rest frs' p N NC RU S' E1 E2 E3 E4]; [reflexivity|]. exfalso. subst.
  assert (SP: g = slow 0 (length g) /\ nxt :: rest = slow (100 * Z.of_nat (length g)) (n - length g)).
  { assert (L: (length g <= n)%nat).
    { assert (L: forall k t, length (slow t k) = k) by (induction k as [|k IHk]; intros t; [reflexivity|cbn [slow length]; rewrite IHk; reflexivity]).
      rewrite <- (L n 0), <- E2, app_length. lia. }
    replace n with (length g + (n - length g))%nat in E2 at 1 by lia. rewrite slow_app in E2.
    assert (LL: forall k t, length (slow t k) = k) by (induction k as [|k IHk]; intros t; [reflexivity|cbn [slow length]; rewrite IHk; reflexivity]).
    assert (Q := f_equal (firstn (length g)) E2). rewrite firstn_app_len in Q by reflexivity. rewrite firstn_app_len in Q by apply LL.
    assert (Q2 := f_equal (skipn (length g)) E2). rewrite skipn_app_len in Q2 by reflexivity. rewrite skipn_app_len in Q2 by apply LL.
    split; [exact Q|]. rewrite Q2. f_equal. }
  destruct SP as (G & X). destruct (length g) as [|q] eqn:LG; [destruct g; [congruence|discriminate]|].
  destruct (n - S q)%nat as [|z] eqn:ZN; [discriminate|]. cbn [slow] in X. assert (NX := f_equal (hd nxt) X). cbn [hd] in NX.
  rewrite NX in RU. clear NX X.
  unfold codeRule in RU. cbn [fintra pic andb] in RU. apply Z.leb_le in RU. rewrite G in RU. rewrite slow_last in RU. cbn [fpts pic] in RU.
  rewrite <- u32_add_l, slow_dur, u32_add_l in RU. rewrite !Nat2Z.inj_succ in RU.
  replace (10 - (100 * Z.succ (Z.of_nat q) - (0 + 100 * Z.of_nat q))) with (-90) in RU by lia.
  replace (100 * Z.of_nat q + (100 * Z.succ (Z.of_nat q) - (0 + 100 * Z.of_nat q))) with (100 * Z.succ (Z.of_nat q)) in RU by lia.
  change (u32 (-90)) with 4294967206 in RU. unfold u32 in RU. rewrite Z.mod_small in RU by lia. lia.
Qed.
Theorem slow_stream_never_cut_refuted n s segs s' : 100 * Z.of_nat n < 4294967000 ->
  newVideo VIDEO_AVC 640 480 1 10 0 = Some s -> videoRun 0 (slow 0 n) s = Some (segs, s') -> segs = [].
Proof.
  intros B NV R. pose proof (new_inv VIDEO_AVC 640 480 1 10 0 0 s eq_refl NV) as I. change (u32 (10 * 1)) with 10 in I.
  destruct (run_from_start VIDEO_AVC 10 0 eq_refl _ 0 s segs s' I (slow_wf n 0 ltac:(lia) ltac:(lia)) R) as (frs & pend & S & F).
  assert (K: kept (slow 0 n) = slow 0 n) by (destruct n; reflexivity). rewrite K in S.
  rewrite (slow_nocut n B frs pend S) in F. inversion F. reflexivity.
Qed.

(** With picture reordering the time line is wrong: with decoding 2 units ahead of presentation the
    player presents every picture 2 units late, because the composition offset is added to a base time that
    is already a presentation time. *)
Theorem reordered_times_refuted : exists s fs segs s' g fr q,
  newVideo VIDEO_AVC 640 480 1 10 0 = Some s /\ pictures fs /\ videoRun 0 fs s = Some (segs, s') /\ In g segs /\
  demux (gbytes g) = Some fr /\ In q (play fr) /\ ~ (exists f, In f fs /\ fbytes f = qbytes q /\ fpts f = qtime q).
Proof.
  destruct (newVideo VIDEO_AVC 640 480 1 10 0) as [s|] eqn:E; [|discriminate].
  set (fs := [mkVFrame [1] 2 0 true; mkVFrame [2] 8 6 true]).
  assert (R: exists g s', videoRun 0 fs s = Some ([g], s') /\ demux (gbytes g) = Some (mkFragment 0 2 [mkAccess [1] 6 2 true])).
  { injection E as <-. eexists _, _. split; [vm_compute; reflexivity|]. vm_compute. reflexivity. }
  destruct R as (g & s' & R & D). exists s, fs, [g], s', g. eexists _, (mkPlayed 4 6 [1] true). split; [reflexivity|].
  split; [repeat constructor; cbn; try lia; unfold len; cbn; lia|]. split; [exact R|]. split; [left; reflexivity|]. split; [exact D|].
  split; [left; reflexivity|]. intros (f & [<-|[<-|[]]] & B & T); cbn in B, T; [discriminate T|discriminate B].
Qed.

(** Pictures that come without a decoding time (all the received streams, which carry the same "no
    decoding time" mark) never give a segment, although a key frame may come every picture, as long as
    they are less than half a target apart: all their durations are zero. *)
Lemma kept_suffix fs : exists a, fs = a ++ kept fs.
Proof. induction fs as [|f fs [a IH]]; [exists []; reflexivity|]. cbn [kept]. destruct (fintra f); [exists []; reflexivity|]. exists (f :: a). cbn. f_equal. exact IH. Qed.
Lemma dur_constant D g : (forall f, In f g -> fdts f = D) -> durOf g = 0.
Proof.
  induction g as [|f [|f' g] IH]; intros H; [reflexivity..|]. change (u32 (fdts f' - fdts f) + durOf (f' :: g) = 0). rewrite IH by (intros x I; apply H; right; exact I).
  rewrite (H f), (H f') by (cbn; auto). rewrite Z.sub_diag. reflexivity.
Qed.
Theorem no_decode_times_refuted m w h tb secs junk stale d fs s segs s' :
  isVideo m = true -> newVideo m w h tb secs junk = Some s -> pictures fs -> 0 <= secs * tb < 4294967296 ->
  (forall f, In f fs -> fdts f = d) ->
  (forall a f f' b, fs = a ++ f :: f' :: b -> 0 <= fpts f' - fpts f /\ 2 * (fpts f' - fpts f) < secs * tb) ->
  videoRun stale fs s = Some (segs, s') -> segs = [].
Proof.
  intros V N P B HD HG R. destruct (run_from_start m _ stale V fs 0 s segs s' (new_inv m w h tb secs junk stale s V N) P R) as (frs & pend & S & F).
  enough (E: frs = []) by (rewrite E in F; inversion F; reflexivity). destruct (kept_suffix fs) as (pre & EP). clear R F.
  remember (kept fs) as ks. inversion S as [k0 p0 NC|k0 g nxt rest frs0 p0 NG NC RU S0 E1 E2 E3 E4]; [reflexivity|]. exfalso. rewrite <- E2 in EP.
  destruct (lastPts_in g NG) as (g' & l & EG). unfold codeRule in RU. apply andb_true_iff in RU. destruct RU as [_ RU]. apply Z.leb_le in RU.
  assert (DG: durOf g = 0).
  { apply (dur_constant d). intros f I. apply HD. rewrite EP. apply in_or_app. right. apply in_or_app. left. exact I. }
  rewrite DG, EG, lastPts_snoc in RU.
  destruct (HG (pre ++ g') l nxt rest) as [G1 G2]; [rewrite EP, EG, <- !app_assoc; reflexivity|].
  unfold u32 in RU. rewrite (Z.mod_small (secs * tb)) in RU by exact B. rewrite !Z.mod_small in RU by lia. lia.
Qed.

(** Pictures that together exceed the segment buffer overrun it. *)
Theorem big_segment_overruns_refuted s big : newVideo VIDEO_AVC 640 480 1 10 0 = Some s -> MAX_DAT < len big ->
  videoRun 0 [mkVFrame big 0 0 true] s = None.
Proof.
  intros E B. pose proof (new_inv VIDEO_AVC 640 480 1 10 0 0 s eq_refl E) as I. set (f := mkVFrame big 0 0 true).
  cbn [videoRun]. unfold videoFrame. rewrite (no_close VIDEO_AVC _ 0 [] 0 s f I) by congruence.
  unfold add_video_sample. change (fbytes f) with big. unfold MAX_DAT in B. destruct (Z.ltb_spec (len big) 1); [lia|].
  rewrite (i_samples _ _ _ _ _ _ I). cbn [samplesOf lastSample rev fintra f negb]. unfold fits. rewrite (i_data _ _ _ _ _ _ I).
  cbn [map concat]. change (len []) with 0. unfold MAX_DAT. destruct (Z.leb_spec (0 + len big) (10 * 1024 * 1024)); [lia|]. reflexivity.
Qed.

(** *** Audio *)

(** C22, C23 for audio. For every sequence of frames and cuts: the segments given out are exactly the
    groups of frames collected between cuts that had something to close, with the bytes and duration of
    every frame. *)
Theorem audio_segments_hold_the_frames ch sr bits n secs junk ops s segs s' :
  newAudio ch sr bits n secs junk = Some s -> 1 <= n < 65536 -> 0 <= secs * sr < 4294967296 ->
  Forall (fun f => 1 <= len (abuf f)) (audioFrames ops) -> audioRun n ops s = Some (segs, s') ->
  Forall2 isFragment segs (audioSegments n (secs * sr) 0 [] ops).
Proof.
  intros N D B W R. pose proof (new_audio_inv ch sr bits n secs junk s N) as I.
  replace (u32 (secs * sr)) with (secs * sr) in I by (symmetry; apply Z.mod_small; exact B).
  apply (audio_run _ n D ops [] 0 s segs s' I (Forall_nil _) W R).
Qed.
(** No frame is lost or repeated: the fragments' frames are a prefix of the frames given. *)
Theorem audio_frames_conserved dur T : forall ops k g, exists rest,
  map (audioAccess dur) (g ++ audioFrames ops) = concat (map faccess (audioSegments dur T k g ops)) ++ rest.
Proof.
  induction ops as [|o ops IH]; intros k g; [exists (map (audioAccess dur) (g ++ [])); reflexivity|].
  destruct o as [f|force]; cbn [audioSegments audioFrames flat_map app].
  - destruct (IH k (g ++ [f])) as (rest & E). exists rest. rewrite <- E, <- app_assoc. reflexivity.
  - destruct g as [|x g]; [apply IH|]. destruct (force || _); [|apply IH].
    destruct (IH (k + 1) []) as (rest & E). exists rest. set (gs := x :: g) in *. rewrite map_app. cbn [concat map faccess audioFragment].
    rewrite <- app_assoc. f_equal. exact E.
Qed.

(** The time of an audio segment is kept in 32 bits: after 2^32 samples (a day at 48 kHz) the
    segments start again at 0. *)
Theorem audio_time_wraps_refuted : exists s ops segs s' g fr f,
  newAudio 2 48000 16 1024 2 0 = Some s /\ audioRun 1024 ops s = Some (segs, s') /\ In (AddA f) ops /\ In g segs /\
  apts f = 4294967296 /\ demux (gbytes g) = Some fr /\ fbase fr = 0.
Proof.
  destruct (newAudio 2 48000 16 1024 2 0) as [s|] eqn:E; [|discriminate].
  set (f := mkAFrame [1] 4294967296).
  assert (R: exists g s', audioRun 1024 [AddA f; CutA true] s = Some ([g], s') /\ demux (gbytes g) = Some (mkFragment 0 0 [mkAccess [1] 1024 0 true])).
  { injection E as <-. eexists _, _. split; [vm_compute; reflexivity|]. vm_compute. reflexivity. }
  destruct R as (g & s' & R & D). exists s, [AddA f; CutA true], [g], s', g. eexists _, f. split; [reflexivity|]. split; [exact R|].
  split; [left; reflexivity|]. split; [left; reflexivity|]. split; [reflexivity|]. split; [exact D|]. reflexivity.
Qed.

(** Example: 25 pictures per second, a key frame every 12 pictures, target 1 second. *)
Definition camera (i : Z) : vframe := mkVFrame [i; 1; 2] (i * 40) (i * 40) (Z.eqb (i mod 12) 0).
Definition cameraStream : list vframe := map camera (map Z.of_nat (seq 0 70)).
Example camera_case : exists s segs s', newVideo VIDEO_AVC 640 480 1000 1 0 = Some s /\ pictures cameraStream /\ regular 1000 cameraStream /\
  videoRun 0 cameraStream s = Some (segs, s') /\ map gstart segs = [0; 960] /\ map gdur segs = [960; 960].
Proof.
  destruct (newVideo VIDEO_AVC 640 480 1000 1 0) as [s|] eqn:E; [|discriminate]. injection E as <-.
  eexists _, _, _. split; [reflexivity|]. split; [|split; [|split; [vm_compute; reflexivity|split; reflexivity]]].
  - unfold cameraStream. apply Forall_forall. intros f IN. apply in_map_iff in IN. destruct IN as (i & <- & IN). apply in_map_iff in IN. destruct IN as (j & <- & IN).
    apply in_seq in IN. split; [cbn [camera fpts]; lia|]. unfold camera, fbytes, len. cbn. lia.
  - assert (H: forall n a, regular 1000 (map camera (map Z.of_nat (seq a n)))); [|apply H]. induction n as [|n IH]; intros a; [exact Logic.I|].
    cbn [seq map regular]. split; [reflexivity|]. split; [|apply IH]. destruct n; [exact Logic.I|]. cbn [seq map camera fpts]. lia.
Qed.

Print Assumptions segments_hold_the_pictures.
Print Assumptions segments_start_with_key_frames.
Print Assumptions segments_are_contiguous_partial.
Print Assumptions segments_close_on_time_partial.
Print Assumptions segments_nearly_last_the_target.
Print Assumptions target_not_reached_refuted.
Print Assumptions slow_stream_never_cut_refuted.
Print Assumptions no_decode_times_refuted.
Print Assumptions reordered_times_refuted.
Print Assumptions big_segment_overruns_refuted.
Print Assumptions audio_segments_hold_the_frames.
Print Assumptions audio_frames_conserved.
Print Assumptions audio_time_wraps_refuted.

(** C22. The index of every segment counts in the time base that the stream was set up with, the one
    the initialisation segment announces (first theorems of IsoProps.v): video. *)
Theorem segment_clock_video m w h tb secs junk stale fs s segs s' g bs :
  newVideo m w h tb secs junk = Some s -> 0 <= tb < 4294967296 -> videoRun stale fs s = Some (segs, s') -> In g segs ->
  parseFile (gbytes g) = Some bs -> field bs ["sidx"]%string 8 4 = Some tb.
Proof.
  intros N B R IN P. pose proof (video_run_opens _ _ _ _ _ R) as O. rewrite Forall_forall in O. specialize (O g IN).
  apply (opens_clock tb g bs); try assumption. replace tb with (ctimebase (gctx s)); [exact O|].
  unfold newVideo in N. destruct (generate_context m junk junk); [|discriminate]. injection N as <-. apply Z.mod_small. exact B.
Qed.
(** Audio: the time base is the sampling rate. *)
Theorem segment_clock_audio ch sr bits n secs junk dur ops s segs s' g bs :
  newAudio ch sr bits n secs junk = Some s -> 0 <= sr < 4294967296 -> audioRun dur ops s = Some (segs, s') -> In g segs ->
  parseFile (gbytes g) = Some bs -> field bs ["sidx"]%string 8 4 = Some sr.
Proof.
  intros N B R IN P. pose proof (audio_run_opens _ _ _ _ _ R) as O. rewrite Forall_forall in O. specialize (O g IN).
  apply (opens_clock sr g bs); try assumption. replace sr with (ctimebase (gctx s)); [exact O|].
  unfold newAudio in N. destruct (generate_context AUDIO junk junk); [|discriminate]. injection N as <-. apply Z.mod_small. exact B.
Qed.
Print Assumptions segment_clock_video.
Print Assumptions segment_clock_audio.
(** A stream at 90000 units a second gives such a segment. *)
Example clock_instance : exists s g s' bs, newVideo VIDEO_AVC 640 480 90000 1 0 = Some s /\
  videoRun 0 [pic 0 true; pic 90000 true] s = Some ([g], s') /\ parseFile (gbytes g) = Some bs /\ field bs ["sidx"]%string 8 4 = Some 90000.
Proof.
  eexists _, _, _, _. split; [reflexivity|]. split; [vm_compute; reflexivity|]. split; [vm_compute; reflexivity|]. vm_compute. reflexivity.
Qed.
