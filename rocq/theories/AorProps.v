(** C93: sound taken out of an audio buffer carries the time it was captured at. *)
From Verif Require Import Base AudioBufIface AudioBufModel AudioBufSpec AudioBufProofs AorModel AorSpec AorProofs.

(** If every frame put in was captured [d] after its presentation time, the same holds of every frame handed out, up to
    the tolerance of the time line, five microseconds of rounding, and the difference between the sizes of the frames put
    in (from [lo] to [hi] samples) and handed out ([osz]). (Partial: the last term should not be there, see
    C93_sizes_refuted; no frame is refused after its silence was put in, see C93_leftover_refuted.) *)
Theorem C93_capture_time_partial :
  forall (B : Type) (zero : B) (ch : nat) (c : acfg) (lo hi : nat) (d : Z) (os : list (aop B * Z)) t xs,
  sane c -> rids c <> [] -> 1 <= osz c ->
  tl_run zero ch c (tl_init ch) (map fst os) = Some (t, xs) -> no_leftover zero ch c (tl_init ch) (map fst os) ->
  steady lo hi d os ->
  exists s ys, orun zero c (newOb zero c ch) os = Ok (s, ys) /\ map fst ys = xs /\
    forall ts f g, In (Out (Some (ts, f)), g) ys ->
      (- (tolerance c + 5 + at_time c (hi - osz c)) <= g - (ts + d) <= tolerance c + 5 + at_time c (osz c - lo))%Z.
Proof.
  intros B zero ch c lo hi d os t xs HS HR HO H NL ST.
  destruct (orun_inv zero ch c HS HR HO lo hi d os (newOb zero c ch) (tl_init ch) t xs ltac:(apply inv_new; assumption) H NL ST) as (s & ys & A & M & F).
  exists s, ys. split; [exact A|]. split; [exact M|]. intros ts f g I. rewrite Forall_forall in F. exact (F _ I).
Qed.
Print Assumptions C93_capture_time_partial.
(** With frames of one size, put in and handed out, nothing but the tolerance is left. *)
Theorem C93_capture_time_same_size_partial :
  forall (B : Type) (zero : B) (ch : nat) (c : acfg) (d : Z) (os : list (aop B * Z)) t xs,
  sane c -> rids c <> [] -> 1 <= osz c ->
  tl_run zero ch c (tl_init ch) (map fst os) = Some (t, xs) -> no_leftover zero ch c (tl_init ch) (map fst os) ->
  steady (osz c) (osz c) d os ->
  exists s ys, orun zero c (newOb zero c ch) os = Ok (s, ys) /\ map fst ys = xs /\
    forall ts f g, In (Out (Some (ts, f)), g) ys -> (Z.abs (g - (ts + d)) <= tolerance c + 5)%Z.
Proof.
  intros B zero ch c d os t xs HS HR HO H NL ST.
  destruct (C93_capture_time_partial B zero ch c _ _ d os t xs HS HR HO H NL ST) as (s & ys & A & M & F).
  exists s, ys. split; [exact A|]. split; [exact M|]. intros ts f g I. specialize (F ts f g I). rewrite Nat.sub_diag in F. change (at_time c 0) with 0%Z in F. lia.
Qed.
Print Assumptions C93_capture_time_same_size_partial.

(** A frame asked for again, whatever was put in meanwhile, is the same frame with the same capture time. *)
Theorem C93_asked_again :
  forall (B : Type) (zero : B) (c : acfg) (s s1 s2 : obuf B) g f a os ys,
  ostep zero c s Fetch g = Ok (s1, (Out (Some f), a)) -> ~ In (@Next B) (map fst os) -> orun zero c s1 os = Ok (s2, ys) ->
  forall o i, nth_error os i = Some (@Fetch B, o) -> nth_error ys i = Some (Out (Some f), a).
Proof.
  intros B zero c s s1 s2 g f a os ys H N R.
  assert (K : afill (ob s1) = false /\ oout s1 = a /\ (fst (aout (ob s1)), map (firstn (osz c * bps c)) (snd (aout (ob s1)))) = f).
  { unfold ostep in H. cbn [astep] in H. unfold getFront in H. destruct (afill (ob s)) eqn:F; cbn [negb] in H.
    - destruct (popFront c (ob s) (snd (aout (ob s))) (osz c)) as [[b [o|]]| |]; [|discriminate..]. cbn [ob oout afill aout fst snd] in H.
      inversion H; subst s1 f. cbn [ob oout afill aout fst snd]. auto.
    - destruct (aout (ob s)) as [t0 o0] eqn:AO. inversion H; subst s1 f. cbn [ob oout]. rewrite AO. auto. }
  clear H s. revert s1 s2 ys K N R. induction os as [|[o h] os IH]; intros s1 s2 ys (F & A & E) N R o' i H; [destruct i; discriminate|].
  cbn [orun] in R. destruct (ostep zero c s1 o h) as [[s' x]| |] eqn:S; [|discriminate..]. destruct (orun zero c s' os) as [[s3 xs]| |] eqn:S2; [|discriminate..].
  inversion R; subst s3 ys. clear R.
  assert (K : afill (ob s') = false /\ oout s' = a /\ (fst (aout (ob s')), map (firstn (osz c * bps c)) (snd (aout (ob s')))) = f /\ (o = Fetch -> x = (Out (Some f), a))).
  { unfold ostep in S. destruct o as [ts n bufs| |]; cbn [astep] in S.
    - assert (P : forall b l, addFrame zero c (ob s1) ts n bufs = Ok (b, l) -> afill b = afill (ob s1) /\ aout b = aout (ob s1)).
      { assert (Q : forall bb w k b r, pushBack c bb w k = Ok (b, r) -> afill b = afill (@bb : abuf B) /\ aout b = aout bb).
        { intros bb w k b r Hp. unfold pushBack in Hp. repeat match type of Hp with context [if ?q then _ else _] => destruct q end; try discriminate; try (inversion Hp; subst; auto);
            match type of Hp with match ?q with _ => _ end = _ => destruct q; [|discriminate] end; inversion Hp; subst; auto. }
        intros b l Hp. unfold addFrame in Hp. cbv zeta in Hp.
        destruct (_ <? _)%Z in Hp; [inversion Hp; subst; auto|]. destruct (_ <? _)%Z in Hp.
        - destruct (_ <=? _)%Z in Hp; [inversion Hp; subst; auto|].
          match type of Hp with match ?q with _ => _ end = _ => destruct q as [[b1 []]| |] eqn:P1; try discriminate end; apply Q in P1; cbn [afill aout] in P1.
          + match type of Hp with match ?q with _ => _ end = _ => destruct q as [[b2 []]| |] eqn:P2; try discriminate end; apply Q in P2; inversion Hp; subst b; destruct P1, P2; split; congruence.
          + inversion Hp; subst b. exact P1.
        - match type of Hp with match ?q with _ => _ end = _ => destruct q as [[b2 []]| |] eqn:P2; try discriminate end; apply Q in P2; cbn [afill aout] in P2; inversion Hp; subst b; exact P2. }
      destruct (addFrame zero c (ob s1) ts n bufs) as [[b l]| |]; [|discriminate..]. destruct (P b l eq_refl) as [P1 P2].
      destruct l; inversion S; subst s' x; cbn [ob oout]; rewrite P1, P2; repeat split; auto; discriminate.
    - unfold getFront in S. rewrite F in S. cbn [negb] in S. destruct (aout (ob s1)) as [t0 o0] eqn:AO. cbn [fst snd] in E. inversion S; subst s' x. cbn [ob oout]. rewrite AO. cbn [fst snd]. subst. auto.
    - exfalso. apply N. left. reflexivity. }
  destruct K as (K1 & K2 & K3 & K4). destruct i as [|i].
  - cbn [nth_error] in *. inversion H; subst. f_equal. exact (K4 eq_refl).
  - cbn [nth_error] in *. refine (IH s' s2 xs _ _ S2 o' i H); [auto|]. intros I. apply N. right. exact I.
Qed.
Print Assumptions C93_asked_again.

(** The capture time is that of the frame put in last, less the time of what is still stored; so the first frame handed
    out of a longer one is said to be captured earlier than it was, by the time of what is left of it. *)
Theorem C93_sizes_refuted :
  forall (B : Type) (zero : B) (ch : nat) (c : acfg) (n : nat) (bufs : list (list B)) (ts g : Z),
  sane c -> rids c <> [] -> 1 <= osz c <= n -> well_formed ch c n bufs = true -> n * bps c <= room c ->
  exists s f, orun zero c (newOb zero c ch) [(Put ts n bufs, g); (Fetch, 0%Z)] =
    Ok (s, [(Told (rids c), 0%Z); (Out (Some (ts, f)), (g - at_time c (n - osz c))%Z)]).
Proof.
  intros B zero ch c n bufs ts g HS HR HN W RM.
  destruct (tl_step zero ch c (tl_init ch) (Put ts n bufs)) as [[t1 x1]|] eqn:E1.
  2:{ exfalso. cbn [tl_step] in E1. rewrite W in E1. cbn [negb orb wr tl_init origin rd stored out] in E1. change (limit <=? Z.of_nat 0)%Z with false in E1. cbv iota in E1.
      change (at_time c 0) with 0%Z in E1. pose proof (tolerance_nonneg c HS) as T.
      replace (ts - (ts + 0) <? - tolerance c)%Z with false in E1 by (symmetry; apply Z.ltb_ge; lia).
      replace (ts - (ts + 0) <=? tolerance c)%Z with true in E1 by (symmetry; apply Z.leb_le; lia). discriminate. }
  assert (E1' := E1). cbn [tl_step] in E1'. rewrite W in E1'. cbn [negb orb wr tl_init origin rd stored out] in E1'. change (limit <=? Z.of_nat 0)%Z with false in E1'. cbv iota in E1'.
  change (at_time c 0) with 0%Z in E1'. pose proof (tolerance_nonneg c HS) as T.
  replace (ts - (ts + 0) <? - tolerance c)%Z with false in E1' by (symmetry; apply Z.ltb_ge; lia).
  replace (ts - (ts + 0) <=? tolerance c)%Z with true in E1' by (symmetry; apply Z.leb_le; lia). unfold offer, fits, used in E1'. cbn [wr rd] in E1'.
  replace ((0 - 0) * bps c + n * bps c <=? room c) with true in E1' by (symmetry; apply Nat.leb_le; lia). inversion E1'; subst x1. clear E1'.
  destruct (step_refines zero ch c HS _ _ _ _ _ (rel_init zero ch c) E1) as (b1 & A1 & R1).
  subst t1.
  set (t1 := append c (mkTl (Some ts) 0 0 (repeat [] ch) None) n bufs) in *.
  assert (E2 : exists t2 f, tl_step zero ch c t1 Fetch = Some (t2, Out (Some (ts, f))) /\ wr t2 = n /\ rd t2 = osz c).
  { cbn [tl_step t1 append out origin wr rd stored]. change (limit <=? Z.of_nat 0)%Z with false. unfold used. change (wr t1) with n. change (rd t1) with 0.
    replace ((n - 0) * bps c <? osz c * bps c) with false by (symmetry; apply Nat.ltb_ge, Nat.mul_le_mono_r; lia).
    change (at_time c 0) with 0%Z. rewrite Z.add_0_r. do 2 eexists. split; [reflexivity|]. split; [reflexivity|reflexivity]. }
  destruct E2 as (t2 & f & E2 & W2 & D2).
  destruct (step_refines zero ch c HS _ _ _ _ _ R1 E2) as (b2 & A2 & R2).
  assert (F1 : afill b1 = true) by (pose proof (r_fill _ _ _ _ R1) as RF; exact RF).
  eexists _, f. cbn [orun]. unfold ostep. cbn [newOb ob oorg oout]. rewrite A1.
  destruct (rids c) as [|i is] eqn:EI; [congruence|]. cbn [ob oorg oout]. rewrite A2, F1. cbn [ob oorg oout].
  replace (outOrigin c g (aelem b2)) with (g - at_time c (n - osz c))%Z; [reflexivity|].
  rewrite (r_elem _ _ _ _ R2). unfold outOrigin, used, at_time. rewrite W2, D2. f_equal. rewrite Nat2Z.inj_mul.
  replace (Z.of_nat (n - osz c) * Z.of_nat (bps c) * 1000000)%Z with (Z.of_nat (bps c) * (Z.of_nat (n - osz c) * 1000000))%Z by lia.
  symmetry. apply Z.div_mul_cancel_l; destruct HS as (? & ? & _); lia.
Qed.
Print Assumptions C93_sizes_refuted.

(** A frame refused after its silence was put in leaves the silence, and the capture time of the frame before: the next
    frame is said to be captured 100 milliseconds before it was. *)
Theorem C93_leftover_refuted :
  exists (c : acfg) (os : list (aop nat * Z)) s ys, sane c /\ steady (osz c) (osz c) 0 os /\ orun 0 c (newOb 0 c 1) os = Ok (s, ys) /\
    map snd ys = [0; 0; -100000]%Z /\ exists f, nth_error (map fst ys) 2 = Some (Out (Some (0%Z, f))).
Proof.
  exists (mkCfg 1000 1 200 100 60 5 [6%Z]), [(Put 0 60 [repeat 1 60], 0%Z); (Put 160000 60 [repeat 2 60], 160000%Z); (Fetch, 0%Z)].
  do 2 eexists. split; [unfold sane; cbn; lia|]. split; [repeat constructor|]. split; [vm_compute; reflexivity|]. split; [reflexivity|]. eexists. reflexivity.
Qed.
Print Assumptions C93_leftover_refuted.

(** Two frames of four samples, captured 50 milliseconds after their presentation time, handed out as they came. *)
Definition exCfg : acfg := mkCfg 1000 1 200 100 4 5 [6%Z].
Definition exOps : list (aop nat * Z) := [(Put 0 4 [[1;2;3;4]], 50000%Z); (Put 4000 4 [[5;6;7;8]], 54000%Z); (Fetch, 0%Z); (Next, 0%Z); (Fetch, 0%Z)].
Example C93_case : sane exCfg /\ rids exCfg <> [] /\ 1 <= osz exCfg /\ steady (osz exCfg) (osz exCfg) 50000 exOps /\
  no_leftover 0 1 exCfg (tl_init 1) (map fst exOps) /\ tl_run 0 1 exCfg (tl_init 1) (map fst exOps) <> None /\
  exists s, orun 0 exCfg (newOb 0 exCfg 1) exOps =
    Ok (s, [(Told [6%Z], 0%Z); (Told [6%Z], 0%Z); (Out (Some (0%Z, [[1;2;3;4]])), 50000%Z); (Freed 5, 50000%Z); (Out (Some (4000%Z, [[5;6;7;8]])), 54000%Z)]).
Proof.
  split; [unfold sane; cbn; lia|]. split; [discriminate|]. split; [cbn; lia|]. split; [repeat constructor|]. split; [vm_compute; intuition discriminate|].
  split; [vm_compute; discriminate|]. eexists. vm_compute. reflexivity.
Qed.
