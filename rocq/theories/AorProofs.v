From Verif Require Import Base AudioBufIface AudioBufModel AudioBufSpec AudioBufProofs AorModel AorSpec.

Section P.
Context {B : Type}.
Variable zero : B.
Variable ch : nat.
Variable c : acfg.
Hypothesis HS : sane c.
Hypothesis HR : rids c <> [].
Hypothesis HO : 1 <= osz c.
Variables lo hi : nat.
Variable d : Z.
Local Open Scope Z_scope.

Lemma rate_pos : 0 < Z.of_nat (rate c).
Proof. destruct HS as (_ & H & _). lia. Qed.
Lemma at_add a b : at_time c a + at_time c b <= at_time c (a + b) <= at_time c a + at_time c b + 1.
Proof.
  pose proof rate_pos as R. unfold at_time. rewrite Nat2Z.inj_add, Z.mul_add_distr_r.
  set (x := Z.of_nat a * 1000000). set (y := Z.of_nat b * 1000000). set (r := Z.of_nat (rate c)) in *.
  pose proof (Z.div_mod x r ltac:(lia)) as Dx. pose proof (Z.div_mod y r ltac:(lia)) as Dy. pose proof (Z.div_mod (x + y) r ltac:(lia)) as Ds.
  pose proof (Z.mod_pos_bound x r R). pose proof (Z.mod_pos_bound y r R). pose proof (Z.mod_pos_bound (x + y) r R).
  split; nia.
Qed.
Lemma at_nonneg a : 0 <= at_time c a.
Proof. pose proof rate_pos. unfold at_time. apply Z.div_pos; lia. Qed.
Lemma at_mono a b : (a <= b)%nat -> at_time c a <= at_time c b.
Proof. intros L. replace b with (a + (b - a))%nat by lia. pose proof (at_add a (b - a)). pose proof (at_nonneg (b - a)). lia. Qed.
(** The silence of a gap ends within a sample of the frame. *)
Lemma gap_close early : 0 <= early -> - 1 <= early - at_time c (Z.to_nat (early * Z.of_nat (rate c) / 1000000)) <= tolerance c + 1.
Proof.
  intros E. pose proof rate_pos as R. unfold at_time, tolerance. set (r := Z.of_nat (rate c)) in *.
  assert (G : 0 <= early * r / 1000000) by (apply Z.div_pos; nia). rewrite Z2Nat.id by exact G. set (g := early * r / 1000000) in *.
  pose proof (Z.div_mod (early * r) 1000000 ltac:(lia)) as D1. fold g in D1. pose proof (Z.mod_pos_bound (early * r) 1000000 ltac:(lia)).
  pose proof (Z.div_mod (g * 1000000) r ltac:(lia)) as D2. pose proof (Z.mod_pos_bound (g * 1000000) r R).
  pose proof (Z.div_mod (64 * 1000000) r ltac:(lia)) as D3. pose proof (Z.mod_pos_bound (64 * 1000000) r R).
  split; nia.
Qed.

(** [l]: time and size of the frame last taken since the line began. *)
Definition close (t : timeline B) (org : Z) : Prop :=
  (wr t = 0%nat /\ rd t = 0%nat) \/
  exists lt n o, origin t = Some o /\ org = lt + d /\ (lo <= n <= hi)%nat /\ (n <= wr t)%nat /\
    - (tolerance c + 3) <= lt - (o + at_time c (wr t - n)) <= tolerance c + 3.
Definition bound (ts g : Z) : Prop :=
  - (tolerance c + 5 + at_time c (hi - osz c)) <= g - (ts + d) <= tolerance c + 5 + at_time c (osz c - lo).
Definition inv (s : obuf B) (t : timeline B) : Prop :=
  rel ch c (ob s) t /\ (rd t <= wr t)%nat /\ (match origin t with None => wr t = 0%nat /\ rd t = 0%nat | _ => True end) /\
  close t (oorg s) /\ match out t with Some f => bound (fst f) (oout s) | None => True end.

Lemma tol_nonneg : 0 <= tolerance c.
Proof. apply (tolerance_nonneg c HS). Qed.

Lemma ostep_inv s t o g t' x : inv s t -> tl_step zero ch c t o = Some (t', x) ->
  (x = Told [] -> wr t' = wr t \/ origin t' = None) ->
  match o with Put ts n _ => (lo <= n <= hi)%nat /\ g = ts + d | _ => True end ->
  exists s', ostep zero c s o g = Ok (s', (x, oout s')) /\ inv s' t' /\ match x with Out (Some (ts, _)) => bound ts (oout s') | _ => True end.
Proof.
  intros (R & LE & OW & CL & BD) H NL ST. destruct (step_refines zero ch c HS _ _ _ _ _ R H) as (b & A & R').
  unfold ostep. rewrite A. eexists. split; [reflexivity|]. cbv zeta. pose proof tol_nonneg as T0.
  destruct o as [ts n bufs| |]; cbn [tl_step] in H.
  - destruct ST as [SN ->]. destruct (negb (well_formed ch c n bufs) || (limit <=? Z.of_nat (wr t))); [discriminate|].
    set (o := match origin t with Some x => x | None => ts end) in *. cbn [wr] in H.
    set (t1 := mkTl (Some o) (wr t) (rd t) (stored t) (out t)) in *.
    set (early := ts - (o + at_time c (wr t))) in *.
    assert (SAME : x = Told [] -> wr t' = wr t -> rd t' = rd t -> origin t' = Some o -> out t' = out t ->
      inv (mkOb b (oorg s) (oout s)) t' /\ True).
    { intros Ex Ew Er Eo Eu. split; [|exact I]. unfold inv. cbn [ob oorg oout]. split; [exact R'|]. rewrite Ew, Er, Eo, Eu.
      split; [exact LE|]. split; [exact I|]. split; [|exact BD]. destruct CL as [CL|(lt & m & o' & Eo' & Hg & Hm & Hm2 & Hc)]; [left; rewrite Ew, Er; exact CL|].
      right. exists lt, m, o. rewrite Ew. split; [exact Eo|]. split; [exact Hg|]. split; [exact Hm|]. split; [exact Hm2|]. unfold o. rewrite Eo'. exact Hc. }
    assert (TAKEN : forall w, x = Told (rids c) -> wr t' = (w + n)%nat -> (wr t <= w)%nat -> rd t' = rd t -> origin t' = Some o -> out t' = out t ->
      - (tolerance c + 3) <= ts - (o + at_time c w) <= tolerance c + 3 -> inv (mkOb b (ts + d) (oout s)) t' /\ True).
    { intros w Ex Ew Lw Er Eo Eu Hc. split; [|exact I]. unfold inv. cbn [ob oorg oout]. split; [exact R'|]. rewrite Ew, Er, Eo, Eu. split; [lia|]. split; [exact I|].
      split; [|exact BD]. right. exists ts, n, o. rewrite Ew. split; [exact Eo|]. split; [reflexivity|]. split; [exact SN|]. split; [lia|].
      replace (w + n - n)%nat with w by lia. exact Hc. }
    assert (RN : exists i is, rids c = i :: is) by (destruct (rids c) as [|i is]; [congruence|eauto]). destruct RN as (i & is & RN).
    assert (OFFER : forall t2 w, offer c t2 n bufs = (t', x) -> wr t2 = w -> (wr t <= w)%nat -> rd t2 = rd t -> origin t2 = Some o -> out t2 = out t ->
      - (tolerance c + 3) <= ts - (o + at_time c w) <= tolerance c + 3 ->
      inv (match x with Told (_ :: _) => mkOb b (ts + d) (oout s) | _ => mkOb b (oorg s) (oout s) end) t' /\ True).
    { intros t2 w E Ew Lw Er Eo Eu Hc. unfold offer in E. destruct (fits c t2 n); inversion E; subst t' x; clear E.
      - rewrite RN. apply (TAKEN w); cbn [append wr rd origin out]; congruence || lia.
      - apply SAME; try reflexivity; try assumption. destruct (NL eq_refl) as [NL'|NL']; [exact NL'|]. congruence. }
    assert (FIN : forall z, inv z t' /\ True -> inv z t' /\ match x with Out (Some (ts0, _)) => bound ts0 (oout z) | _ => True end).
    { intros z [I1 _]. split; [exact I1|]. destruct x as [l|oo|w]; try exact I. exfalso.
      repeat match type of H with context [if ?q then _ else _] => destruct q; try discriminate end;
        unfold offer in H; repeat match type of H with context [if ?q then _ else _] => destruct q; try discriminate end. }
    apply FIN. clear FIN.
    destruct (Z.ltb_spec early (- tolerance c)) as [Hl|Hl].
    { inversion H; subst t' x. apply SAME; reflexivity. }
    destruct (Z.leb_spec early (tolerance c)) as [Ho|Ho].
    { assert (E : offer c t1 n bufs = (t', x)) by (inversion H; reflexivity). apply (OFFER t1 (wr t)); try reflexivity; try assumption. fold early. lia. }
    destruct (Z.leb_spec limit (early * Z.of_nat (rate c) / 1000000)); [discriminate|].
    destruct (Z.leb_spec (Z.of_nat (maxs c)) (early * Z.of_nat (rate c) / 1000000)).
    { inversion H; subst t' x. split; [|exact I]. unfold inv. cbn [ob oorg oout wr rd origin out t1] in *. split; [exact R'|]. split; [lia|]. split; [auto|]. split; [left; auto|exact BD]. }
    destruct (fits c t1 (Z.to_nat (early * Z.of_nat (rate c) / 1000000))); cbn [negb] in H.
    2:{ inversion H; subst t' x. apply SAME; reflexivity. }
    destruct (Nat.ltb _ _); [discriminate|]. set (gp := Z.to_nat (early * Z.of_nat (rate c) / 1000000)) in *.
    assert (E : offer c (append c t1 gp (silence zero ch c)) n bufs = (t', x)) by (inversion H; reflexivity).
    apply (OFFER _ (wr t + gp)%nat E); try reflexivity; [lia|]. pose proof (gap_close early ltac:(lia)) as GC. fold gp in GC. pose proof (at_add (wr t) gp). unfold early in GC. lia.
  - destruct (out t) as [f|] eqn:Eo.
    + inversion H; subst t' x. pose proof (r_fill _ _ _ _ R) as RF. rewrite Eo in RF. destruct RF as [RF _]. rewrite RF.
      split; [unfold inv; cbn [ob oorg oout]; rewrite Eo; auto|]. destruct f as [ts0 l0]. exact BD.
    + pose proof (r_fill _ _ _ _ R) as RF. rewrite Eo in RF. rewrite RF. destruct (Z.leb_spec limit (Z.of_nat (rd t))); [discriminate|].
      destruct (Nat.ltb_spec (used c t) (osz c * bps c)) as [U|U].
      { inversion H; subst t' x. split; [|exact I]. unfold inv. cbn [ob oorg oout]. rewrite Eo. auto. }
      inversion H; subst t' x. clear H.
      assert (Hb : (1 <= bps c)%nat) by apply HS. unfold used in U. apply Nat.mul_le_mono_pos_r in U; [|lia].
      assert (EL : outOrigin c (oorg s) (aelem b) = oorg s - at_time c (wr t - (rd t + osz c))).
      { rewrite (r_elem _ _ _ _ R'). unfold outOrigin, used, at_time. cbn [wr rd]. f_equal. rewrite Nat2Z.inj_mul.
        replace (Z.of_nat (wr t - (rd t + osz c)) * Z.of_nat (bps c) * 1000000) with (Z.of_nat (bps c) * (Z.of_nat (wr t - (rd t + osz c)) * 1000000)) by lia.
        apply Z.div_mul_cancel_l; pose proof rate_pos; lia. }
      destruct CL as [[W0 _]|(lt & n & o & Ho & Hg & Hn & Hn2 & Hc)]; [lia|].
      assert (BB : bound (match origin t with Some x => x | None => 0 end + at_time c (rd t)) (outOrigin c (oorg s) (aelem b))).
      { rewrite EL, Ho, Hg. unfold bound. set (rem := (wr t - (rd t + osz c))%nat) in *. pose proof (at_nonneg (hi - osz c)). pose proof (at_nonneg (osz c - lo)).
        pose proof (at_add (rd t) rem) as A1. 
        destruct (Nat.le_gt_cases n (osz c)) as [C|C].
        - replace (wr t - n)%nat with ((rd t + rem) + (osz c - n))%nat in Hc by lia. pose proof (at_add (rd t + rem) (osz c - n)) as A2.
          pose proof (at_mono (osz c - n) (osz c - lo) ltac:(lia)). pose proof (at_nonneg (osz c - n)). lia.
        - replace (rd t + rem)%nat with ((wr t - n) + (n - osz c))%nat in A1 by lia. pose proof (at_add (wr t - n) (n - osz c)) as A2.
          pose proof (at_mono (n - osz c) (hi - osz c) ltac:(lia)). pose proof (at_nonneg (n - osz c)). lia. }
      cbn [oout]. split; [|exact BB]. unfold inv. cbn [ob oorg oout wr rd origin out fst]. split; [exact R'|]. split; [lia|]. split; [rewrite Ho; exact I|].
      split; [|exact BB]. right. exists lt, n, o. cbn [wr origin]. auto.
  - inversion H; subst t' x. split; [|exact I]. unfold inv. cbn [ob oorg oout wr rd origin out]. repeat (split; [assumption|]). exact I.
Qed.

Lemma orun_inv os : forall s t t' xs, inv s t -> tl_run zero ch c t (map fst os) = Some (t', xs) -> no_leftover zero ch c t (map fst os) ->
  steady lo hi d os ->
  exists s' ys, orun zero c s os = Ok (s', ys) /\ map fst ys = xs /\
    Forall (fun y => match y with (Out (Some (ts, _)), g) => bound ts g | _ => True end) ys.
Proof.
  induction os as [|[o g] os IH]; intros s t t' xs IV H NL ST; cbn [map fst tl_run no_leftover orun] in *.
  - inversion H; subst. exists s, []. auto.
  - destruct (tl_step zero ch c t o) as [[t1 x]|] eqn:E; [|discriminate]. destruct NL as [NL1 NL].
    destruct (tl_run zero ch c t1 (map fst os)) as [[t2 zs]|] eqn:E2; [|discriminate]. inversion H; subst; clear H.
    apply Forall_cons_iff in ST. destruct ST as [S1 ST].
    destruct (ostep_inv s t o g t1 x IV E NL1) as (s1 & A & IV1 & BX); [destruct o; auto|].
    destruct (IH s1 t1 t' zs IV1 E2 NL ST) as (s2 & ys & A2 & M & F). rewrite A, A2. exists s2, ((x, oout s1) :: ys).
    split; [reflexivity|]. split; [cbn [map fst]; congruence|]. constructor; [|exact F]. destruct x as [l|[[ts0 f0]|]|w]; exact BX || exact I.
Qed.
Lemma inv_new : inv (newOb zero c ch) (tl_init ch).
Proof. unfold inv. cbn [newOb ob oorg oout tl_init wr rd origin out]. split; [apply rel_init|]. split; [lia|]. split; [auto|]. split; [left; auto|exact I]. Qed.
End P.
