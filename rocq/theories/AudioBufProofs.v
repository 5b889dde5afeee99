From Verif Require Import Base AudioBufIface AudioBufModel AudioBufSpec AudioBufRing.

Section Proofs.
Context {B : Type}.
Variable zero : B.

Lemma map2o_ok {X Y : Type} (f : X -> Y -> option X) (P : X -> Y -> X -> Prop) xs ys :
  length xs = length ys ->
  (forall i x y, nth_error xs i = Some x -> nth_error ys i = Some y -> exists z, f x y = Some z /\ P x y z) ->
  exists zs, map2o f xs ys = Some zs /\ length zs = length xs /\
    (forall i x y z, nth_error xs i = Some x -> nth_error ys i = Some y -> nth_error zs i = Some z -> P x y z).
Proof.
  revert ys; induction xs as [|x t IH]; intros [|y u] Hl H; try discriminate Hl.
  - exists []. split; [reflexivity|]. split; [reflexivity|]. intros [|i]; cbn; discriminate.
  - destruct (H 0 x y eq_refl eq_refl) as (z & Hz & Pz).
    destruct (IH u) as (zs & Hzs & Hlz & HP); [cbn in Hl; lia|intros i a b Ha Hb; apply (H (S i)); assumption|].
    exists (z :: zs). cbn. rewrite Hz, Hzs. split; [reflexivity|]. split; [cbn; lia|].
    intros [|i] a b e; cbn; [congruence|apply HP].
Qed.

Definition chans (L f : nat) (d q : list (list B)) (n : nat) : Prop :=
  length d = length q /\
  (forall i x y, nth_error d i = Some x -> nth_error q i = Some y -> ring_ok L x f y /\ length y = n).

Lemma nth_error_some_lt {A} (l : list A) i : i < length l -> exists x, nth_error l i = Some x.
Proof. intros H. destruct (nth_error l i) eqn:E; [eexists; reflexivity|]. apply nth_error_None in E. lia. Qed.
Lemma nth_error_lt {A} (l : list A) i x : nth_error l i = Some x -> i < length l.
Proof. intros H. apply nth_error_Some. congruence. Qed.

Lemma nth_error_combine {X Y : Type} (xs : list X) (ys : list Y) i :
  nth_error (combine xs ys) i =
  match nth_error xs i, nth_error ys i with Some a, Some b => Some (a, b) | _, _ => None end.
Proof.
  revert ys i; induction xs as [|x t IH]; intros [|y u] [|i]; cbn; try reflexivity.
  - destruct (nth_error t i); reflexivity.
  - apply IH.
Qed.

Lemma if_map2o {X Y : Type} (b : bool) (f g : X -> Y -> option X) xs ys :
  (if b then map2o f xs ys else map2o g xs ys) = map2o (fun x y => if b then f x y else g x y) xs ys.
Proof. destruct b; reflexivity. Qed.

Variable ch : nat.
Variable c : acfg.
Hypothesis HS : sane c.

Let L := chLen c.
Lemma L_pos : 0 < L.
Proof.
  destruct HS as (H1 & H2 & H3 & _). unfold L, chLen.
  assert (1 <= rate c / 1000) by (apply (Nat.div_le_lower_bound _ 1000 1); lia).
  repeat apply Nat.mul_pos_pos; lia.
Qed.
Lemma L_room : room c = L. Proof. reflexivity. Qed.

Record rel (s : abuf B) (t : timeline B) : Prop := {
  r_ch : length (stored t) = ch;
  r_data : chans L (afront s) (adata s) (stored t) (used c t);
  r_le : rd t <= wr t;
  r_rear : arear s = wr t * bps c;
  r_front : afront s = rd t * bps c;
  r_elem : aelem s = used c t;
  r_room : used c t <= L;
  r_sync : async s = origin t;
  r_out : length (snd (aout s)) = ch;
  r_cap : Forall (fun b => length b = cap c) (snd (aout s));
  r_fill : match out t with
           | Some f => afill s = false /\ f = (fst (aout s), map (firstn (osz c * bps c)) (snd (aout s)))
           | None => afill s = true end
}.

Lemma rel_init : rel (newBuf zero c ch) (tl_init ch).
Proof.
  split; cbn; try reflexivity; try lia.
  - apply repeat_length.
  - split; [rewrite !repeat_length; reflexivity|]. intros i x y Hx Hy.
    apply nth_error_In, repeat_spec in Hx, Hy. subst.
    unfold used; cbn. split; [|lia]. split; [apply repeat_length|]. cbn; split; [lia|]. intros k Hk; lia.
  - apply repeat_length.
  - apply Forall_forall. intros x Hx. apply repeat_spec in Hx. subst. apply repeat_length.
Qed.

Lemma push_rel s t n bufs : rel s t -> length bufs = ch -> Forall (fun b => n * bps c <= length b) bufs ->
  fits c t n = true ->
  exists s', pushBack c s bufs n = Ok (s', true) /\ rel s' (append c t n bufs).
Proof.
  intros R Hb Hbl Hf. unfold fits in Hf. apply Nat.leb_le in Hf.
  destruct R as [Rch Rd Rle Rr Rf Re Rroom Rs Ro Rc Rfill].
  unfold pushBack. fold L. rewrite Re. pose proof L_pos as HL. pose proof L_room as HR.
  destruct (Nat.ltb_spec (L - used c t) (n * bps c)) as [Hx|Hx]; [lia|].
  destruct (Nat.eqb_spec L 0) as [Hy|_]; [lia|]. rewrite if_map2o.
  destruct Rd as [Hdl Hd].
  pose (P := fun (d b d' : list B) => forall q, ring_ok L d (afront s) q -> length q = used c t ->
       ring_ok L d' (afront s) (q ++ firstn (n * bps c) b)).
  destruct (map2o_ok (fun x y => chPush L (arear s mod L) (n * bps c) x y) P (adata s) bufs) as (zs & Hz & Hzl & HP).
  - congruence.
  - intros i x y Hi Hj.
    destruct (nth_error_some_lt (stored t) i) as (q & Hq).
    { rewrite <- Hdl. apply (nth_error_lt _ _ _ Hi). }
    destruct (Hd i x q Hi Hq) as [Hring Hlq].
    assert (Hyl : n * bps c <= length y).
    { rewrite Forall_forall in Hbl. apply Hbl. apply nth_error_In in Hj. exact Hj. }
    assert (Hrear : arear s mod L = (afront s + length q) mod L).
    { f_equal. rewrite Rr, Rf, Hlq. unfold used. rewrite <- Nat.mul_add_distr_r. f_equal. lia. }
    destruct (ring_push L x (afront s) q y (n * bps c) HL Hring Hyl ltac:(lia)) as (d' & Hd' & Hr').
    exists d'. rewrite Hrear. split; [exact Hd'|].
    intros q2 Hq2 Hl2.
    destruct (ring_push L x (afront s) q2 y (n * bps c) HL Hq2 Hyl ltac:(lia)) as (d2 & Hd2 & Hr2).
    rewrite Hl2, <- Hlq in Hd2. congruence.
  - unfold chPush in Hz. rewrite Hz. eexists. split; [reflexivity|].
    assert (Hst : forall i x y, nth_error zs i = Some x ->
        nth_error (map (fun p => fst p ++ firstn (n * bps c) (snd p)) (combine (stored t) bufs)) i = Some y ->
        ring_ok L x (afront s) y /\ length y = used c t + n * bps c).
    { intros i x y Hi Hj.
      destruct (nth_error_some_lt (adata s) i) as (d & Hdi). { rewrite <- Hzl. apply (nth_error_lt _ _ _ Hi). }
      destruct (nth_error_some_lt (stored t) i) as (q & Hqi). { rewrite <- Hdl. apply (nth_error_lt _ _ _ Hdi). }
      destruct (nth_error_some_lt bufs i) as (b & Hbi). { rewrite Hb, <- Rch. apply (nth_error_lt _ _ _ Hqi). }
      rewrite nth_error_map, nth_error_combine, Hqi, Hbi in Hj. cbn in Hj. inversion Hj; subst y; clear Hj.
      destruct (Hd i d q Hdi Hqi) as [Hring Hlq].
      split; [apply (HP i d b x Hdi Hbi Hi q Hring Hlq)|].
      rewrite app_length, firstn_length. rewrite Forall_forall in Hbl. apply nth_error_In in Hbi.
      pose proof (Hbl _ Hbi). cbn in *. lia. }
    assert (Hu : used c (append c t n bufs) = used c t + n * bps c).
    { unfold used, append; cbn [wr rd]. rewrite <- Nat.mul_add_distr_r. f_equal. lia. }
    split; cbn [append adata arear afront aelem async afill aout stored wr rd origin out]; try assumption; try lia.
    + rewrite map_length, combine_length. lia.
    + split; [rewrite map_length, combine_length; lia|].
      intros i x y Hi Hj. rewrite Hu. apply (Hst i x y Hi Hj).
Qed.

Lemma push_refused s t n bufs : rel s t -> fits c t n = false -> pushBack c s bufs n = Ok (s, false).
Proof.
  intros R Hf. unfold fits in Hf. apply Nat.leb_gt in Hf. rewrite L_room in Hf.
  destruct R as [Rch Rd Rle Rr Rf Re Rroom Rs Ro Rc Rfill].
  unfold pushBack. fold L. rewrite Re.
  destruct (Nat.ltb_spec (L - used c t) (n * bps c)) as [Hx|Hx]; [reflexivity|lia].
Qed.

Lemma posTime_at n : (Z.of_nat n < limit)%Z -> posTime c (n * bps c) = at_time c n.
Proof.
  intros H. unfold posTime, at_time. destruct HS as (H1 & _).
  rewrite Nat2Z.inj_mul, Z.div_mul by lia. rewrite Z.mod_small by (unfold limit in H; lia). reflexivity.
Qed.

Lemma offer_step s t n bufs : rel s t -> length bufs = ch -> Forall (fun b => n * bps c <= length b) bufs ->
  exists s',
    match pushBack c s bufs n with
      | Ok (s', true) => Ok (s', rids c)
      | Ok (s', false) => Ok (s', [])
      | OutOfBounds => OutOfBounds
      | DivByZero => DivByZero
      end = Ok (s', match snd (offer c t n bufs) with Told l => l | _ => [] end)
    /\ snd (offer c t n bufs) = Told (match snd (offer c t n bufs) with Told l => l | _ => [] end)
    /\ rel s' (fst (offer c t n bufs)).
Proof.
  intros R Hb Hbl. unfold offer. destruct (fits c t n) eqn:Ef; cbn [fst snd].
  - destruct (push_rel s t n bufs R Hb Hbl Ef) as (s' & Hp & Hr). rewrite Hp.
    exists s'. split; [reflexivity|]. split; [reflexivity|exact Hr].
  - rewrite (push_refused s t n bufs R Ef). exists s. split; [reflexivity|]. split; [reflexivity|exact R].
Qed.

Lemma rel_sync s t o : rel s t ->
  rel (mkAb (adata s) (arear s) (afront s) (aelem s) (Some o) (afill s) (aout s) (alost s))
      (mkTl (Some o) (wr t) (rd t) (stored t) (out t)).
Proof. intros []. split; cbn; try assumption; try reflexivity. Qed.

Lemma step_refines s t o t' x : rel s t -> tl_step zero ch c t o = Some (t', x) ->
  exists s', astep zero c s o = Ok (s', x) /\ rel s' t'.
Proof.
  intros R H. destruct o as [ts n bufs| |]; cbn [tl_step astep] in *.
  - destruct (negb (well_formed ch c n bufs) || (limit <=? Z.of_nat (wr t))%Z) eqn:E; [discriminate|].
    apply orb_false_iff in E. destruct E as [E1 E2]. apply negb_false_iff in E1.
    unfold well_formed in E1. apply andb_true_iff in E1. destruct E1 as [E1 E3].
    apply Nat.eqb_eq in E1. rewrite forallb_forall in E3.
    assert (Hbl : Forall (fun b => n * bps c <= length b) bufs).
    { apply Forall_forall. intros b Hb. apply Nat.leb_le, E3, Hb. }
    apply Z.leb_gt in E2.
    unfold addFrame. rewrite (r_sync _ _ R).
    set (sy := match origin t with Some x => x | None => ts end) in *.
    cbn [arear adata].
    pose proof (rel_sync s t sy R) as R'.
    set (s1 := mkAb (adata s) (arear s) (afront s) (aelem s) (Some sy) (afill s) (aout s) (alost s)) in *.
    set (t1 := mkTl (Some sy) (wr t) (rd t) (stored t) (out t)) in *.
    rewrite (r_rear _ _ R), (posTime_at _ E2).
    cbn [wr] in H. change (wr t1) with (wr t) in H.
    replace (ts - (at_time c (wr t) + sy))%Z with (ts - (sy + at_time c (wr t)))%Z by lia.
    set (early := (ts - (sy + at_time c (wr t)))%Z) in *.
    change (thr c) with (tolerance c).
    destruct (Z.ltb_spec early (- tolerance c)) as [Hlate|Hlate].
    { inversion H; subst; clear H. eexists. split; [reflexivity|exact R']. }
    destruct (Z.leb_spec early (tolerance c)) as [Hon|Hon].
    { destruct (Z.ltb_spec (tolerance c) early) as [Hx|_]; [lia|].
      destruct (offer_step s1 t1 n bufs R' E1 Hbl) as (s' & Hp & Hans & Hr).
      inversion H as [H1]; clear H. rewrite H1 in *. cbn [fst snd] in *. rewrite Hans. exists s'. rewrite Hp.
      split; [reflexivity|exact Hr]. }
    destruct (Z.ltb_spec (tolerance c) early) as [_|Hx]; [|lia].
    destruct (Z.leb_spec limit (early * Z.of_nat (rate c) / 1000000)) as [|Hg]; [discriminate|].
    assert (Hgap0 : (0 <= early * Z.of_nat (rate c) / 1000000)%Z).
    { apply Z.div_pos; [|lia]. apply Z.mul_nonneg_nonneg; [|lia].
      assert (0 <= tolerance c)%Z; [|lia]. unfold tolerance. destruct HS as (_ & Hr & _).
      apply Z.div_pos; lia. }
    rewrite Z.mod_small by (unfold limit in Hg; lia).
    set (gap := (early * Z.of_nat (rate c) / 1000000)%Z) in *.
    destruct (Z.leb_spec (Z.of_nat (maxs c)) gap) as [Hbig|Hbig].
    { inversion H; subst; clear H. eexists. split; [reflexivity|].
      destruct R as [Rch Rd Rle Rr Rf Re Rroom Rs Ro Rc Rfill].
      split; cbn; try reflexivity; try assumption; try lia.
      - apply repeat_length.
      - destruct Rd as [Hdl Hd]. split; [rewrite repeat_length; lia|].
        intros i x y Hi Hj. apply nth_error_In, repeat_spec in Hj. subst y.
        unfold used; cbn. split; [|lia].
        destruct (nth_error_some_lt (stored t) i) as (q & Hq). { rewrite <- Hdl. apply (nth_error_lt _ _ _ Hi). }
        destruct (Hd i x q Hi Hq) as [(Hxl & _) _].
        split; [exact Hxl|]. cbn. split; [lia|]. intros k Hk; lia. }
    destruct (fits c t1 (Z.to_nat gap)) eqn:Ef; cbn [negb] in H.
    + destruct (Nat.ltb_spec (cap c) (Z.to_nat gap * bps c)) as [|Hc]; [discriminate|].
      replace (length (adata s)) with ch.
      2:{ destruct (r_data _ _ R') as [Hl _]. change (adata s1) with (adata s) in Hl. rewrite Hl. symmetry. apply (r_ch _ _ R'). }
      destruct (push_rel s1 t1 (Z.to_nat gap) (silence zero ch c) R') as (s2 & Hp2 & R2); [| |exact Ef|].
      { apply repeat_length. }
      { apply Forall_forall. intros b Hb. apply repeat_spec in Hb. subst. rewrite repeat_length. exact Hc. }
      unfold silence in Hp2. fold s1. rewrite Hp2.
      destruct (offer_step s2 _ n bufs R2 E1 Hbl) as (s' & Hp & Hans & Hr).
      inversion H as [H1]; clear H. rewrite H1 in *. cbn [fst snd] in *. rewrite Hans. exists s'. rewrite Hp.
      split; [reflexivity|exact Hr].
    + inversion H; subst; clear H.
      rewrite (push_refused s1 t1 _ _ R' Ef). eexists. split; [reflexivity|exact R'].
  - unfold getFront. pose proof (r_fill _ _ R) as Hfill.
    destruct (out t) as [f|] eqn:Eo.
    + destruct Hfill as [Hf Hf2]. inversion H; subst t' x; clear H. rewrite Hf. cbn [negb].
      exists s. split; [|exact R]. destruct (aout s) as [ts o]. rewrite Hf2. reflexivity.
    + rewrite Hfill. cbn [negb].
      destruct (Z.leb_spec limit (Z.of_nat (rd t))) as [|Hlim]; [discriminate|].
      pose proof R as R0.
      destruct R0 as [Rch Rd Rle Rr Rf Re Rroom Rs Ro Rc Rfill].
      rewrite Rf, (posTime_at _ Hlim), Rs. rewrite <- Rf.
      unfold popFront. fold L. rewrite Re.
      destruct (Nat.ltb_spec (used c t) (osz c * bps c)) as [Hu|Hu].
      { inversion H; subst; clear H. eexists. split; [reflexivity|].
        split; cbn; try assumption; try reflexivity. rewrite Eo. reflexivity. }
      inversion H; subst t' x; clear H.
      pose proof L_pos as HL. destruct (Nat.eqb_spec L 0) as [Hy|_]; [lia|]. rewrite if_map2o.
      destruct Rd as [Hdl Hd].
      pose (P := fun (o d o' : list B) => length o' = length o /\
            forall q, ring_ok L d (afront s) q -> length q = used c t ->
               firstn (osz c * bps c) o' = firstn (osz c * bps c) q).
      destruct (map2o_ok (fun o d => chPop L (afront s mod L) (osz c * bps c) o d) P (snd (aout s)) (adata s)) as (zs & Hz & Hzl & HP).
      { congruence. }
      { intros i o d Hi Hj. 
        assert (Hol : osz c * bps c <= length o).
        { rewrite Forall_forall in Rc. apply nth_error_In in Hi. rewrite (Rc _ Hi). apply HS. }
        destruct (nth_error_some_lt (stored t) i) as (q & Hq). { rewrite <- Hdl. apply (nth_error_lt _ _ _ Hj). }
        destruct (Hd i d q Hj Hq) as [Hring Hlq].
        destruct (ring_pop L d (afront s) q o (osz c * bps c) HL Hring ltac:(lia) Hol) as (o' & Ho' & Hlo & Hfo & _).
        exists o'. split; [exact Ho'|]. split; [exact Hlo|]. intros q2 Hq2 Hl2.
        destruct (ring_pop L d (afront s) q2 o (osz c * bps c) HL Hq2 ltac:(lia) Hol) as (o2 & Ho2 & _ & Hfo2 & _).
        congruence. }
      unfold chPop in Hz. rewrite Hz. cbn [adata arear afront aelem async aout alost].
      assert (Hzs : map (firstn (osz c * bps c)) zs = map (firstn (osz c * bps c)) (stored t)).
      { assert (Hlen : length zs = length (stored t)) by congruence.
        apply nth_ext with (d := []) (d' := []); [rewrite !map_length; exact Hlen|].
        intros i Hi. rewrite map_length in Hi.
        destruct (nth_error_some_lt zs i Hi) as (z & Hzi).
        destruct (nth_error_some_lt (stored t) i ltac:(lia)) as (q & Hqi).
        destruct (nth_error_some_lt (adata s) i ltac:(lia)) as (d & Hdi).
        destruct (nth_error_some_lt (snd (aout s)) i ltac:(lia)) as (o & Hoi).
        destruct (Hd i d q Hdi Hqi) as [Hring Hlq].
        destruct (HP i o d z Hoi Hdi Hzi) as [_ Hq].
        rewrite (nth_error_nth _ i [] (map_nth_error (firstn (osz c * bps c)) i zs Hzi)).
        rewrite (nth_error_nth _ i [] (map_nth_error (firstn (osz c * bps c)) i (stored t) Hqi)).
        apply Hq; assumption. }
      eexists. split; [rewrite <- Hzs; rewrite Z.add_comm; reflexivity|].
      assert (Hus : (wr t - (rd t + osz c)) * bps c = used c t - osz c * bps c).
      { unfold used. rewrite <- Nat.mul_sub_distr_r. f_equal. lia. }
      assert (Hle : rd t + osz c <= wr t).
      { unfold used in Hu. destruct HS as (Hb & _). apply Nat.mul_le_mono_pos_r in Hu; lia. }
      split; cbn [adata arear afront aelem async afill aout alost stored wr rd origin out fst snd];
        try assumption; try lia.
      * rewrite map_length. exact Rch.
      * split; [rewrite map_length; exact Hdl|]. intros i x y Hi Hj.
        destruct (nth_error_some_lt (stored t) i) as (q & Hq). { rewrite <- Hdl. apply (nth_error_lt _ _ _ Hi). }
        rewrite (map_nth_error _ i _ Hq) in Hj. inversion Hj; subst y; clear Hj.
        destruct (Hd i x q Hi Hq) as [Hring Hlq].
        destruct (ring_pop L x (afront s) q q (osz c * bps c) HL Hring ltac:(lia) ltac:(lia)) as (o2 & _ & _ & _ & Hr).
        split; [exact Hr|]. rewrite skipn_length, Hlq. unfold used at 2. cbn [wr rd]. lia.
      * unfold used at 2. cbn [wr rd]. lia.
      * unfold used at 1. cbn [wr rd]. lia.
      * apply Forall_forall. intros z Hz1. apply In_nth_error in Hz1. destruct Hz1 as (i & Hzi).
        pose proof (nth_error_lt _ _ _ Hzi) as Hi.
        destruct (nth_error_some_lt (adata s) i ltac:(lia)) as (d & Hdi).
        destruct (nth_error_some_lt (snd (aout s)) i ltac:(lia)) as (o & Hoi).
        destruct (HP i o d z Hoi Hdi Hzi) as [Hq _]. rewrite Hq.
        rewrite Forall_forall in Rc. apply Rc. apply nth_error_In in Hoi. exact Hoi.
      * split; [reflexivity|]. rewrite Hzs. rewrite Z.add_comm. reflexivity.
  - inversion H; subst; clear H. eexists. split; [reflexivity|].
    destruct R as [Rch Rd Rle Rr Rf Re Rroom Rs Ro Rc Rfill].
    split; cbn; try assumption. reflexivity.
Qed.

Lemma run_refines os : forall s t t' xs, rel s t -> tl_run zero ch c t os = Some (t', xs) ->
  exists s', arun zero c s os = Ok (s', xs) /\ rel s' t'.
Proof.
  induction os as [|o r IH]; intros s t t' xs R H; cbn [tl_run arun] in *.
  - inversion H; subst. exists s. split; [reflexivity|exact R].
  - destruct (tl_step zero ch c t o) as [[t1 x]|] eqn:E; [|discriminate].
    destruct (tl_run zero ch c t1 r) as [[t2 ys]|] eqn:E2; [|discriminate].
    inversion H; subst; clear H.
    destruct (step_refines s t o t1 x R E) as (s1 & Hs1 & R1). rewrite Hs1.
    destruct (IH s1 t1 t' ys R1 E2) as (s2 & Hs2 & R2). rewrite Hs2.
    exists s2. split; [reflexivity|exact R2].
Qed.

(** ** Histories on time (C07) *)
Definition holds (t : timeline B) : bool := match out t with Some _ => true | None => false end.

Lemma at_time_0 : at_time c 0 = 0%Z.
Proof. reflexivity. Qed.

Lemma tolerance_nonneg : (0 <= tolerance c)%Z.
Proof. unfold tolerance. destruct HS as (_ & Hr & _). apply Z.div_pos; lia. Qed.

(** An on-time frame is offered as it is. *)
Lemma on_time_put t ts n bufs :
  match origin t with Some org => (Z.abs (ts - (org + at_time c (wr t))) <= tolerance c)%Z | None => wr t = 0 end ->
  well_formed ch c n bufs = true -> (Z.of_nat (wr t) < limit)%Z ->
  tl_step zero ch c t (Put ts n bufs) =
  Some (offer c (mkTl (Some (match origin t with Some x => x | None => ts end)) (wr t) (rd t) (stored t) (out t)) n bufs).
Proof.
  intros Ho Hw Hl. cbn [tl_step]. rewrite Hw. cbn [negb orb].
  apply Z.leb_gt in Hl. rewrite Hl. cbn [wr].
  pose proof tolerance_nonneg as Ht.
  set (early := (ts - (match origin t with Some x => x | None => ts end + at_time c (wr t)))%Z).
  assert (He : (Z.abs early <= tolerance c)%Z).
  { unfold early. destruct (origin t) as [org|]; [exact Ho|]. rewrite Ho, at_time_0. lia. }
  destruct (Z.ltb_spec early (- tolerance c)); [lia|].
  destruct (Z.leb_spec early (tolerance c)); [reflexivity|lia].
Qed.

Lemma well_formed_len n (bufs : list (list B)) : well_formed ch c n bufs = true -> length bufs = ch.
Proof. intros H. apply andb_true_iff in H. apply Nat.eqb_eq, H. Qed.

Lemma nth_append t n (bufs : list (list B)) k : length (stored t) = ch -> length bufs = ch -> k < ch ->
  nth k (stored (append c t n bufs)) [] = nth k (stored t) [] ++ firstn (n * bps c) (nth k bufs []).
Proof.
  intros Hs Hb Hk. unfold append; cbn [stored].
  set (f := fun p : list B * list B => fst p ++ firstn (n * bps c) (snd p)).
  rewrite (nth_indep _ [] (f ([], []))) by (rewrite map_length, combine_length; lia).
  rewrite map_nth. rewrite combine_nth by congruence. reflexivity.
Qed.

Lemma on_time_run os : forall t,
  length (stored t) = ch -> rd t <= wr t -> used c t <= room c ->
  on_time zero ch c t os -> all_well_formed ch c os -> (Z.of_nat (wr t + count_in os) < limit)%Z ->
  rids c <> [] ->
  exists t' xs, tl_run zero ch c t os = Some (t', xs) /\ length (stored t') = ch /\
    (forall k, k < ch -> nth k (stored t) [] ++ accepted c k (combine os xs) =
        delivered k (holds t) (combine os xs) ++ nth k (stored t') []).
Proof.
  induction os as [|o r IH]; intros t Hch Hrw Hroom Hon Hwf Hlim Hids.
  - exists t, []. cbn. split; [reflexivity|]. split; [exact Hch|]. intros k _. rewrite app_nil_r. reflexivity.
  - cbn [on_time] in Hon. destruct Hon as [Ho Hon]. pose proof (Forall_inv Hwf) as Hw; pose proof (Forall_inv_tail Hwf) as Hwf'; cbn beta in Hw.
    destruct o as [ts n bufs| |].
    + assert (Hlt : (Z.of_nat (wr t) < limit)%Z) by (clear - Hlim; cbn [count_in fold_right] in Hlim; lia).
      pose proof (on_time_put t ts n bufs Ho Hw Hlt) as HP.
      set (t1 := mkTl (Some (match origin t with Some x => x | None => ts end)) (wr t) (rd t) (stored t) (out t)) in *.
      pose proof (well_formed_len _ _ Hw) as Hbl.
      cbn [tl_run]. rewrite HP in *. unfold offer in *. cbn [count_in fold_right] in Hlim.
      fold (count_in r) in Hlim.
      destruct (fits c t1 n) eqn:Ef; cbn [fst snd] in *.
      * destruct (IH (append c t1 n bufs)) as (t' & xs & Hr & Hl & Hk).
        { cbn. rewrite map_length, combine_length, Hch, Hbl. apply Nat.min_id. }
        { cbn. lia. }
        { unfold fits in Ef. apply Nat.leb_le in Ef. unfold used in *. cbn [append wr rd] in *.
          change (wr t1) with (wr t) in *. change (rd t1) with (rd t) in *.
          replace ((wr t + n - rd t) * bps c) with ((wr t - rd t) * bps c + n * bps c); [lia|].
          rewrite <- Nat.mul_add_distr_r. f_equal. lia. }
        { exact Hon. } { exact Hwf'. } { unfold append, t1; cbn [wr]. lia. } { exact Hids. }
        rewrite Hr. exists t', (Told (rids c) :: xs). split; [reflexivity|]. split; [exact Hl|].
        intros k Hkc. specialize (Hk k Hkc). cbn [combine accepted flat_map delivered].
        destruct (rids c) as [|i0 il] eqn:Ei; [congruence|].
        fold (accepted c k (combine r xs)).
        rewrite app_assoc. rewrite (nth_append t1 n bufs k Hch Hbl Hkc) in Hk. cbn [stored] in Hk. exact Hk.
      * destruct (IH t1) as (t' & xs & Hr & Hl & Hk); try assumption; try (unfold t1; cbn [wr]; lia).
        rewrite Hr. exists t', (Told [] :: xs). split; [reflexivity|]. split; [exact Hl|].
        intros k Hkc. specialize (Hk k Hkc). cbn [combine accepted flat_map delivered app]. exact Hk.
    + cbn [tl_run]. cbn [tl_step] in *. destruct (out t) as [f|] eqn:Eo.
      * destruct (IH t) as (t' & xs & Hr & Hl & Hk); try assumption.
        rewrite Hr. exists t', (Out (Some f) :: xs). split; [reflexivity|]. split; [exact Hl|].
        intros k Hkc. specialize (Hk k Hkc). destruct f as [ts o].
        cbn [combine accepted flat_map delivered app]. unfold holds in *. rewrite Eo in *. exact Hk.
      * destruct (Z.leb_spec limit (Z.of_nat (rd t))) as [Hx|_]; [cbn [count_in fold_right] in Hlim; lia|].
        destruct (Nat.ltb_spec (used c t) (osz c * bps c)) as [Hu|Hu].
        -- destruct (IH t) as (t' & xs & Hr & Hl & Hk); try assumption.
           rewrite Hr. exists t', (Out None :: xs). split; [reflexivity|]. split; [exact Hl|].
           intros k Hkc. specialize (Hk k Hkc).
           cbn [combine accepted flat_map delivered app]. exact Hk.
        -- assert (Hle : rd t + osz c <= wr t).
           { unfold used in Hu. destruct HS as (Hb & _). apply Nat.mul_le_mono_pos_r in Hu; lia. }
           match type of Hon with on_time _ _ _ ?t1 r => set (t2 := t1) in * end.
           destruct (IH t2) as (t' & xs & Hr & Hl & Hk); try assumption; try (cbn; lia).
           { cbn. rewrite map_length. exact Hch. }
           { unfold used in *. cbn [t2 wr rd]. transitivity ((wr t - rd t) * bps c); [|exact Hroom].
             apply Nat.mul_le_mono_r. lia. }
           rewrite Hr. eexists t', (Out _ :: xs). split; [reflexivity|]. split; [exact Hl|].
           intros k Hkc. specialize (Hk k Hkc).
           cbn [combine accepted flat_map delivered app].
           change (holds t2) with true in Hk. unfold holds. rewrite Eo.
           unfold t2 in Hk; cbn [stored] in Hk.
           replace (nth k (map (firstn (osz c * bps c)) (stored t)) []) with (firstn (osz c * bps c) (nth k (stored t) [])).
           2:{ rewrite <- (map_nth (firstn (osz c * bps c))). rewrite firstn_nil. reflexivity. }
           replace (nth k (map (skipn (osz c * bps c)) (stored t)) []) with (skipn (osz c * bps c) (nth k (stored t) [])) in Hk.
           2:{ rewrite <- (map_nth (skipn (osz c * bps c))). rewrite skipn_nil. reflexivity. }
           rewrite <- (firstn_skipn (osz c * bps c) (nth k (stored t) [])) at 1.
           rewrite <- !app_assoc. f_equal. exact Hk.
    + cbn [tl_run tl_step] in *.
      match type of Hon with on_time _ _ _ ?t1 r => set (t2 := t1) in * end.
      destruct (IH t2) as (t' & xs & Hr & Hl & Hk); try assumption.
      rewrite Hr. eexists t', (Freed _ :: xs). split; [reflexivity|]. split; [exact Hl|].
      intros k Hkc. specialize (Hk k Hkc).
      cbn [combine accepted flat_map delivered app]. exact Hk.
Qed.
End Proofs.

Lemma reframing {B} (zero : B) ch c os :
  sane c -> rids c <> [] -> all_well_formed ch c os -> (Z.of_nat (count_in os) < limit)%Z ->
  on_time zero ch c (tl_init ch) os ->
  exists s xs, arun zero c (newBuf zero c ch) os = Ok (s, xs) /\
    forall k, k < ch -> exists rest, accepted c k (combine os xs) = delivered k false (combine os xs) ++ rest
                 /\ length rest = aelem s /\ aelem s <= room c.
Proof.
  intros HS Hids Hwf Hlim Hon.
  destruct (on_time_run zero ch c HS os (tl_init ch)) as (t' & xs & Hr & Hl & Hk); try assumption.
  { apply repeat_length. } { cbn; lia. } { unfold used; cbn; lia. }
  destruct (run_refines zero ch c HS os _ _ t' xs (rel_init zero ch c) Hr) as (s & Hs & R).
  exists s, xs. split; [exact Hs|]. intros k Hkc. specialize (Hk k Hkc).
  exists (nth k (stored t') []). split; [|split].
  - cbn [holds tl_init out stored] in Hk. rewrite nth_repeat in Hk. exact Hk.
  - destruct (r_data _ _ _ _ R) as [Hdl Hd].
    destruct (nth_error_some_lt (stored t') k ltac:(lia)) as (q & Hq).
    destruct (nth_error_some_lt (adata s) k ltac:(lia)) as (d & Hdd).
    rewrite (nth_error_nth _ _ _ Hq). destruct (Hd k d q Hdd Hq) as [_ H]. rewrite H. symmetry. apply (r_elem _ _ _ _ R).
  - rewrite (r_elem _ _ _ _ R). apply (r_room _ _ _ _ R).
Qed.

Lemma timeline_refines {B} (zero : B) ch c os t xs :
  sane c -> tl_run zero ch c (tl_init ch) os = Some (t, xs) ->
  exists s, arun zero c (newBuf zero c ch) os = Ok (s, xs).
Proof.
  intros HS Hr. destruct (run_refines zero ch c HS os _ _ t xs (rel_init zero ch c) Hr) as (s & Hs & _).
  exists s. exact Hs.
Qed.

Lemma long_gap {B} (zero : B) ch c ts n bufs0 bufs :
  sane c -> length bufs0 = S ch -> 
  let g := (ts * Z.of_nat (rate c) / 1000000)%Z in
  (tolerance c < ts)%Z -> cap c < Z.to_nat g * bps c -> (g < Z.of_nat (maxs c) < limit)%Z ->
  arun zero c (newBuf zero c (S ch)) [Put 0 0 bufs0; Put ts n bufs] = OutOfBounds.
Proof.
  intros HS Hb0 g Hts Hcap Hg.
  pose proof (rel_init zero (S ch) c) as R0.
  assert (E0 : tl_step zero (S ch) c (tl_init (S ch)) (Put 0 0 bufs0) =
     Some (append c (mkTl (Some 0%Z) 0 0 (repeat [] (S ch)) None) 0 bufs0, Told (rids c))).
  { rewrite on_time_put; [|exact HS|reflexivity| |reflexivity].
    - reflexivity.
    - unfold well_formed. rewrite Hb0, Nat.eqb_refl. cbn [andb]. apply forallb_forall. intros; reflexivity. }
  destruct (step_refines zero (S ch) c HS _ _ _ _ _ R0 E0) as (s1 & Hs1 & R1).
  cbn [arun]. rewrite Hs1. cbn [astep]. unfold addFrame.
  rewrite (r_sync _ _ _ _ R1), (r_rear _ _ _ _ R1). cbn [append origin wr]. cbn [plus].
  cbn [arear adata aelem].
  rewrite (posTime_at c HS) by reflexivity.
  rewrite (at_time_0 c). change (thr c) with (tolerance c).
  replace (ts - (0 + 0))%Z with ts by lia.
  pose proof (tolerance_nonneg c HS) as Ht.
  destruct (Z.ltb_spec ts (- tolerance c)); [lia|]. destruct (Z.ltb_spec (tolerance c) ts); [|lia].
  fold g. assert (Hg0 : (0 <= g)%Z) by (apply Z.div_pos; lia).
  rewrite Z.mod_small by (unfold limit in Hg; lia).
  destruct (Z.leb_spec (Z.of_nat (maxs c)) g); [lia|].
  unfold pushBack. cbn [aelem arear adata].
  rewrite (r_elem _ _ _ _ R1). unfold used; cbn [append wr rd]. cbn [plus minus mult].
  rewrite Nat.sub_0_r.
  assert (HL : Z.to_nat g * bps c < chLen c).
  { unfold chLen. destruct HS as (Hb & Hr & Hm & _).
    assert (1 <= rate c / 1000) by (apply (Nat.div_le_lower_bound _ 1000 1); lia).
    apply Nat.mul_lt_mono_pos_r; [lia|]. apply Nat.lt_le_trans with (maxs c); [lia|].
    rewrite <- (Nat.mul_1_r (maxs c)) at 1. apply Nat.mul_le_mono_l. lia. }
  destruct (Nat.ltb_spec (chLen c) (Z.to_nat g * bps c)); [lia|].
  destruct (Nat.eqb_spec (chLen c) 0); [lia|].
  rewrite Nat.mod_0_l by lia. cbn [plus].
  destruct (Nat.ltb_spec (Z.to_nat g * bps c) (chLen c)); [|lia].
  destruct (r_data _ _ _ _ R1) as [Hdl _].
  assert (Hda : length (adata s1) = S ch).
  { rewrite Hdl. apply (r_ch _ _ _ _ R1). }
  destruct (adata s1) as [|d0 dt]; [discriminate Hda|]. cbn [length repeat map2o].
  unfold memcpy at 1. rewrite repeat_length.
  destruct (Nat.leb_spec (0 + Z.to_nat g * bps c) (cap c)); [lia|]. reflexivity.
Qed.
