From Coq Require Import Ascii String.
From Verif Require Import Base JsonModel CtlModel CtlSpec CtlProofs F32 FtxModel FtxSpec.
Local Open Scope list_scope.
Local Open Scope Z_scope.

(** *** Rounding *)
Lemma rne_err n d : 0 < d -> 2 * Z.abs (rne n d * d - n) <= d.
Proof.
  intros D. unfold rne. pose proof (Z.mod_pos_bound n d D). pose proof (Z.div_mod n d ltac:(lia)) as E.
  destruct (Z.ltb_spec (2 * (n mod d)) d); [|destruct (Z.ltb_spec d (2 * (n mod d))); [|destruct (Z.even (n / d))]]; set (q := n / d) in *; set (r := n mod d) in *; clearbody q r; subst n; nia.
Qed.
Lemma rne_scale n d c : 0 < d -> 0 < c -> rne (n * c) (d * c) = rne n d.
Proof.
  intros D C. unfold rne. rewrite Z.div_mul_cancel_r, Z.mul_mod_distr_r by lia.
  destruct (Z.ltb_spec (2 * (n mod d * c)) (d * c)), (Z.ltb_spec (2 * (n mod d)) d); try nia;
    destruct (Z.ltb_spec (d * c) (2 * (n mod d * c))), (Z.ltb_spec d (2 * (n mod d))); nia.
Qed.
Lemma fl_scale n d c : 0 < d -> 0 < c -> fl (n * c) (d * c) = fl n d.
Proof.
  intros D C. assert (P : forall n, flp (n * c) (d * c) = flp n d).
  { intros n'. unfold flp, expo. cbv zeta. rewrite Z.div_mul_cancel_r by lia. set (e := Z.max 0 (Z.log2 (n' / d) - 23)).
    pose proof (Z.pow_pos_nonneg 2 e ltac:(lia) ltac:(unfold e; lia)). replace (d * c * 2 ^ e) with (d * 2 ^ e * c) by ring. rewrite rne_scale by nia. reflexivity. }
  unfold fl. replace (- (n * c)) with (- n * c) by ring. rewrite !P. destruct (Z.ltb_spec (n * c) 0), (Z.ltb_spec n 0); nia.
Qed.
Lemma fl_ratio n1 d1 n2 d2 : 0 < d1 -> 0 < d2 -> n1 * d2 = n2 * d1 -> fl n1 d1 = fl n2 d2.
Proof. intros D1 D2 E. rewrite <- (fl_scale n1 d1 d2), <- (fl_scale n2 d2 d1) by lia. rewrite E, (Z.mul_comm d1 d2). reflexivity. Qed.
(** Half a unit in the last place: at most 2^-24 of the value if it has full precision. *)
Lemma flp_err n d : 0 < d -> 2 ^ 23 * d <= n -> 2 ^ 24 * Z.abs (flp n d * d - n) <= n.
Proof.
  intros D B. unfold flp. cbv zeta. set (e := expo n d). assert (Q : 2 ^ 23 <= n / d) by (apply Z.div_le_lower_bound; lia).
  pose proof (Z.log2_le_mono _ _ Q) as L. rewrite Z.log2_pow2 in L by lia. assert (E : e = Z.log2 (n / d) - 23) by (unfold e, expo; lia).
  assert (E0 : 0 <= e) by lia. pose proof (Z.pow_pos_nonneg 2 e ltac:(lia) E0) as P.
  pose proof (Z.log2_spec (n / d) ltac:(lia)) as [LL _]. replace (Z.log2 (n / d)) with (e + 23) in LL by lia. rewrite Z.pow_add_r in LL by lia.
  pose proof (Z.mul_div_le n d D) as MD. assert (N : 2 ^ e * 2 ^ 23 * d <= n) by nia.
  pose proof (rne_err n (d * 2 ^ e) ltac:(nia)) as R. replace (rne n (d * 2 ^ e) * 2 ^ e * d) with (rne n (d * 2 ^ e) * (d * 2 ^ e)) by ring.
  change (2 ^ 24) with (2 ^ 23 * 2). nia.
Qed.
Lemma fl_pos n d : 0 <= n -> fl n d = flp n d.
Proof. intros H. unfold fl. destruct (Z.ltb_spec n 0); [lia|reflexivity]. Qed.
(** Nearest. *)
Lemma flp_near n d w : 0 < d -> 0 <= n -> isFloat w -> Z.abs (flp n d * d - n) <= Z.abs (w * d - n).
Proof.
  intros D N (a & k & K & A & ->). unfold flp. cbv zeta. set (e := expo n d). assert (E0 : 0 <= e) by (unfold e, expo; lia).
  pose proof (Z.pow_pos_nonneg 2 e ltac:(lia) E0) as P. pose proof (Z.pow_pos_nonneg 2 k ltac:(lia) K) as PK. set (u := 2 ^ e) in *.
  set (w := a * 2 ^ k). set (q := n / (d * u)). assert (DU : 0 < d * u) by nia.
  pose proof (Z.mod_pos_bound n (d * u) DU) as M. pose proof (Z.div_mod n (d * u) ltac:(lia)) as DM. fold q in DM. set (r := n mod (d * u)) in *.
  assert (G : w <= q * u \/ (q + 1) * u <= w).
  { destruct (Z.le_gt_cases e k) as [C|C].
    - (* w is a multiple of u *) unfold w. replace (2 ^ k) with (2 ^ (k - e) * u) by (unfold u; rewrite <- Z.pow_add_r by lia; f_equal; lia). set (b := a * 2 ^ (k - e)). replace (a * (2 ^ (k - e) * u)) with (b * u) by (unfold b; ring).
      destruct (Z.le_gt_cases b q); [left|right]; apply Z.mul_le_mono_nonneg_r; lia.
    - (* w is below the binade of n/d *) left. assert (EL : Z.log2 (n / d) = e + 23) by (unfold e, expo in *; lia).
      assert (ND : 0 < n / d) by (destruct (Z.le_gt_cases (n / d) 0) as [X|X]; [rewrite Z.log2_nonpos in EL by lia; lia|exact X]).
      pose proof (Z.log2_spec (n / d) ND) as [LL _]. rewrite EL, Z.pow_add_r in LL by lia. fold u in LL.
      assert (QB : 2 ^ 23 <= q). { unfold q. rewrite <- Z.div_div by lia. apply Z.div_le_lower_bound; lia. }
      assert (W : w <= 2 ^ 24 * 2 ^ k) by (unfold w; nia). replace u with (2 * 2 ^ (e - 1)) in * by (unfold u; replace e with (1 + (e - 1)) at 2 by lia; rewrite Z.pow_add_r by lia; reflexivity).
      assert (2 ^ k <= 2 ^ (e - 1)) by (apply Z.pow_le_mono_r; lia). nia. }
  assert (R : Z.abs (rne n (d * u) * u * d - n) <= r /\ Z.abs (rne n (d * u) * u * d - n) <= d * u - r).
  { unfold rne. fold q. fold r. replace (q * u * d) with (d * u * q) by ring. replace ((q + 1) * u * d) with (d * u * q + d * u) by ring.
    destruct (Z.ltb_spec (2 * r) (d * u)); [|destruct (Z.ltb_spec (d * u) (2 * r)); [|destruct (Z.even q)]]; rewrite ?Z.mul_add_distr_r;
      try (replace (q * u * d) with (d * u * q) by ring); try (replace ((q + 1) * u * d) with (d * u * q + d * u) by ring); lia. }
  destruct R as [R1 R2]. destruct G as [G|G].
  - assert (w * d <= d * u * q) by nia. lia.
  - assert (d * u * q + d * u <= w * d) by nia. lia.
Qed.
Lemma fl_near n d w : 0 < d -> isFloat w -> Z.abs (fl n d * d - n) <= Z.abs (w * d - n).
Proof.
  intros D W. unfold fl. destruct (Z.ltb_spec n 0) as [H|H]; [|apply flp_near; assumption].
  assert (W' : isFloat (- w)) by (destruct W as (a & k & K & A & ->); exists (- a), k; repeat split; lia).
  pose proof (flp_near (- n) d (- w) D ltac:(lia) W'). lia.
Qed.

(** *** Powers of ten *)
Lemma up_pos k : 0 < up k. Proof. apply Z.pow_pos_nonneg; lia. Qed.
Lemma dn_pos k : 0 < dn k. Proof. apply Z.pow_pos_nonneg; lia. Qed.
Lemma up_dn k j : 0 <= j -> up (k + j) * dn k = 10 ^ j * up k * dn (k + j).
Proof.
  intros J. unfold up, dn. rewrite <- !Z.pow_add_r by lia. f_equal. lia.
Qed.
Lemma ofDec_shift m k j : 0 <= j -> ofDec (m * 10 ^ j) k = ofDec m (k + j).
Proof.
  intros J. unfold ofDec. apply fl_ratio; [apply dn_pos|apply dn_pos|]. pose proof (up_dn k j J) as E.
  replace (m * up (k + j) * one * dn k) with (m * one * (up (k + j) * dn k)) by ring. rewrite E. ring.
Qed.
Lemma ofDec_opp m k : ofDec (- m) k = - ofDec m k.
Proof. unfold ofDec. replace (- m * up k * one) with (- (m * up k * one)) by ring. apply fl_opp, dn_pos. Qed.

(** *** The decimal exponent *)
Lemma atLeast_mono v x y : 0 <= v -> y <= x -> atLeast v x = true -> atLeast v y = true.
Proof.
  intros V L H. unfold atLeast in *. apply Z.leb_le in H. apply Z.leb_le. pose proof (up_dn y (x - y) ltac:(lia)) as E. replace (y + (x - y)) with x in E by lia.
  pose proof (up_pos x). pose proof (up_pos y). pose proof (dn_pos x). pose proof (dn_pos y). pose proof one_pos.
  assert (T : 1 <= 10 ^ (x - y)) by (pose proof (Z.pow_pos_nonneg 10 (x - y)); lia).
  apply Z.mul_le_mono_pos_r with (p := dn x); [assumption|]. assert (A : up y * dn x <= up x * dn y) by nia.
  assert (B : up x * one * dn y <= v * dn x * dn y) by nia. nia.
Qed.
Lemma decade_spec fuel : forall x v, atLeast v (x + 1) = false -> atLeast v (x + 1 - Z.of_nat fuel) = true ->
  let y := decade fuel x v in atLeast v y = true /\ atLeast v (y + 1) = false.
Proof.
  induction fuel as [|f IH]; intros x v H1 H2; cbn [decade].
  - change (Z.of_nat 0) with 0 in H2. rewrite Z.sub_0_r in H2. congruence.
  - destruct (atLeast v x) eqn:A; [split; assumption|]. apply IH.
    + replace (x - 1 + 1) with x by lia. exact A.
    + replace (x - 1 + 1 - Z.of_nat f) with (x + 1 - Z.of_nat (S f)) by lia. exact H2.
Qed.
Lemma decade_range v : 1 <= v -> v <= 10 ^ 39 * one - 1 -> let x := decade 84 38 v in atLeast v x = true /\ atLeast v (x + 1) = false /\ -45 <= x <= 38.
Proof.
  intros A B x. assert (H0 : atLeast v 39 = false) by (unfold atLeast; apply Z.leb_gt; change (up 39) with (10 ^ 39); change (dn 39) with 1; lia).
  assert (H1 : atLeast v (-45) = true).
  { unfold atLeast. apply Z.leb_le. change (up (-45)) with 1. change (dn (-45)) with (10 ^ 45). assert (one <= 10 ^ 45) by (vm_compute; discriminate). nia. }
  destruct (decade_spec 84 38 v H0 H1) as [S1 S2]. fold x in S1, S2. split; [exact S1|]. split; [exact S2|].
  split.
  - destruct (Z.le_gt_cases (-45) x); [assumption|]. rewrite (atLeast_mono v (-45) (x + 1)) in S2 by (try lia; assumption). discriminate.
  - destruct (Z.le_gt_cases x 38); [assumption|]. rewrite (atLeast_mono v x 39) in H0 by (try lia; assumption). discriminate.
Qed.
(** What the digits are rounded from: N / D with 10^5 <= N / D < 10^6. *)
Lemma decade_frac v x : atLeast v x = true -> atLeast v (x + 1) = false ->
  100000 * (one * up (x - 5)) <= v * dn (x - 5) < 1000000 * (one * up (x - 5)).
Proof.
  unfold atLeast. intros A B. apply Z.leb_le in A. apply Z.leb_gt in B. pose proof (up_dn (x - 5) 5 ltac:(lia)) as E5. pose proof (up_dn (x - 5) 6 ltac:(lia)) as E6.
  replace (x - 5 + 5) with x in E5 by lia. replace (x - 5 + 6) with (x + 1) in E6 by lia. change (10 ^ 5) with 100000 in E5. change (10 ^ 6) with 1000000 in E6.
  pose proof (dn_pos x). pose proof (dn_pos (x + 1)). pose proof (dn_pos (x - 5)). pose proof one_pos. split.
  - apply Z.mul_le_mono_pos_r with (p := dn x); [assumption|]. replace (100000 * (one * up (x - 5)) * dn x) with (one * (up x * dn (x - 5))) by (rewrite E5; ring). nia.
  - apply Z.mul_lt_mono_pos_r with (p := dn (x + 1)); [assumption|]. replace (1000000 * (one * up (x - 5)) * dn (x + 1)) with (one * (up (x + 1) * dn (x - 5))) by (rewrite E6; ring). nia.
Qed.
(** The six digits, and how near they are. *)
Lemma six_spec v : 1 <= v -> v <= 10 ^ 39 * one - 1 -> let '(m, x) := six v in
  100000 <= m < 1000000 /\ -45 <= x <= 39 /\
  200000 * Z.abs (v * dn (x - 5) - m * (one * up (x - 5))) <= v * dn (x - 5).
Proof.
  intros A B. unfold six. destruct (decade_range v A B) as (S1 & S2 & S3). set (x := decade 84 38 v) in *. pose proof (decade_frac v x S1 S2) as F.
  set (N := v * dn (x - 5)) in *. set (D := one * up (x - 5)) in *. assert (DP : 0 < D) by (unfold D; pose proof one_pos; pose proof (up_pos (x - 5)); nia).
  pose proof (rne_err N D DP) as R. assert (M : 100000 <= rne N D <= 1000000) by (split; [apply rne_ge; lia|apply rne_le; lia]).
  destruct (Z.eqb_spec (rne N D) 1000000) as [E|E].
  - split; [lia|]. split; [lia|]. rewrite E in R. pose proof (up_dn (x - 5) 1 ltac:(lia)) as U. replace (x - 5 + 1) with (x + 1 - 5) in U by lia. change (10 ^ 1) with 10 in U.
    pose proof (dn_pos (x - 5)). pose proof (dn_pos (x + 1 - 5)). set (d := dn (x - 5)) in *. set (d' := dn (x + 1 - 5)) in *.
    assert (K : v * d' * d = N * d') by (unfold N; fold d; ring). assert (K2 : 100000 * (one * up (x + 1 - 5)) * d = 1000000 * D * d') by (unfold D; replace (100000 * (one * up (x + 1 - 5)) * d) with (100000 * one * (up (x + 1 - 5) * d)) by ring; rewrite U; ring).
    apply Z.mul_le_mono_pos_r with (p := d); [assumption|]. replace (200000 * Z.abs (v * d' - 100000 * (one * up (x + 1 - 5))) * d) with (200000 * Z.abs (v * d' * d - 100000 * (one * up (x + 1 - 5)) * d)).
    2:{ rewrite <- Z.mul_sub_distr_r, Z.abs_mul, (Z.abs_eq d) by lia. ring. }
    rewrite K, K2. replace (N * d' - 1000000 * D * d') with ((N - 1000000 * D) * d') by ring. rewrite Z.abs_mul, (Z.abs_eq d') by lia. nia.
  - split; [lia|]. split; [lia|]. lia.
Qed.

(** *** Texts *)
Lemma trim_spec fuel : forall m l, (fuel < l)%nat -> 10 ^ (Z.of_nat l - 1) <= m < 10 ^ Z.of_nat l ->
  let '(m', l') := trim fuel m l in (0 < l' <= l)%nat /\ m = m' * 10 ^ (Z.of_nat l - Z.of_nat l') /\ 10 ^ (Z.of_nat l' - 1) <= m' < 10 ^ Z.of_nat l'.
Proof.
  induction fuel as [|f IH]; intros m l L B; cbn [trim].
  - split; [lia|]. split; [rewrite Z.sub_diag; lia|exact B].
  - destruct (Z.eqb_spec (m mod 10) 0) as [E|E].
    + destruct l as [|l]; [lia|]. cbn [pred]. assert (M : m = 10 * (m / 10)) by (pose proof (Z.div_mod m 10 ltac:(lia)); lia).
      assert (B' : 10 ^ (Z.of_nat l - 1) <= m / 10 < 10 ^ Z.of_nat l).
      { replace (Z.of_nat (S l) - 1) with (1 + (Z.of_nat l - 1)) in B by lia. replace (Z.of_nat (S l)) with (1 + Z.of_nat l) in B by lia. rewrite !Z.pow_add_r in B by lia. change (10 ^ 1) with 10 in B. lia. }
      specialize (IH (m / 10) l ltac:(lia) B'). destruct (trim f (m / 10) l) as [m' l']. destruct IH as (I1 & I2 & I3). split; [lia|]. split; [|exact I3].
      rewrite M, I2. replace (Z.of_nat (S l) - Z.of_nat l') with (1 + (Z.of_nat l - Z.of_nat l')) by lia. rewrite Z.pow_add_r by lia. change (10 ^ 1) with 10. ring.
    + split; [lia|]. split; [rewrite Z.sub_diag; lia|exact B].
Qed.
Lemma digit_of d : 0 <= d < 10 -> digit (digitChar d) = Some d.
Proof. intros H. unfold digitChar. replace (Z.to_N (48 + d)) with (48 + Z.to_N d)%N by lia. apply digit_char. lia. Qed.
Lemma span_digs l : forall m rest acc n, 0 <= m < 10 ^ Z.of_nat l -> span acc n (digs l m ++ rest) = span (acc * 10 ^ Z.of_nat l + m) (n + Z.of_nat l) rest.
Proof.
  induction l as [|l IH]; intros m rest acc n B; cbn [digs].
  - change (10 ^ Z.of_nat 0) with 1 in *. cbn [app]. f_equal; lia.
  - replace (Z.of_nat (S l)) with (1 + Z.of_nat l) in * by lia. rewrite Z.pow_add_r in * by lia. change (10 ^ 1) with 10 in *.
    rewrite <- app_assoc, IH by (split; [apply Z.div_pos; lia|apply Z.div_lt_upper_bound; lia]). cbn [app span].
    pose proof (Z.mod_pos_bound m 10 ltac:(lia)). rewrite digit_of by lia. pose proof (Z.div_mod m 10 ltac:(lia)). f_equal; lia.
Qed.
Lemma span_stop acc n c t : digit c = None -> span acc n (c :: t) = (acc, n, c :: t).
Proof. intros H. cbn [span]. rewrite H. reflexivity. Qed.
Lemma digs_head l m : 0 <= m < 10 ^ Z.of_nat (S l) -> exists c t, digs (S l) m = c :: t /\ digit c <> None.
Proof.
  revert m. induction l as [|l IH]; intros m B.
  - exists (digitChar (m mod 10)), []. split; [reflexivity|]. pose proof (Z.mod_pos_bound m 10 ltac:(lia)). rewrite digit_of by lia. discriminate.
  - destruct (IH (m / 10)) as (c & t & E & D). { replace (Z.of_nat (S (S l))) with (1 + Z.of_nat (S l)) in B by lia. rewrite Z.pow_add_r in B by lia. change (10 ^ 1) with 10 in B. split; [apply Z.div_pos; lia|apply Z.div_lt_upper_bound; lia]. }
    exists c, (t ++ [digitChar (m mod 10)]). split; [|exact D]. change (digs (S (S l)) m) with (digs (S l) (m / 10) ++ [digitChar (m mod 10)]). rewrite E. reflexivity.
Qed.
Lemma digit_minus c : digit c <> None -> is c "-" = false.
Proof. intros H. destruct (is c "-") eqn:E; [|reflexivity]. apply Ascii.eqb_eq in E. subst. exfalso. apply H. reflexivity. Qed.
Lemma digit_point c : digit c <> None -> is c "." = false.
Proof. intros H. destruct (is c ".") eqn:E; [|reflexivity]. apply Ascii.eqb_eq in E. subst. exfalso. apply H. reflexivity. Qed.
(** What follows the digits of a number: nothing, or an exponent. *)
Definition tail (r : str) : Prop := r = [] \/ exists t, r = "e"%char :: t.
Lemma read_plain m l rest : 0 <= m < 10 ^ Z.of_nat l -> (0 < l)%nat -> tail rest -> readPos (digs l m ++ rest) = Z.min fltMax (ofDec m (exponent rest)).
Proof.
  intros B L T. unfold readPos. rewrite span_digs by exact B.
  assert (E : span (0 * 10 ^ Z.of_nat l + m) (0 + Z.of_nat l) rest = (m, Z.of_nat l, rest)).
  { replace (0 * 10 ^ Z.of_nat l + m) with m by lia. replace (0 + Z.of_nat l) with (Z.of_nat l) by lia. destruct T as [->|[t ->]]; [reflexivity|apply span_stop; reflexivity]. }
  rewrite E. destruct T as [->|[t ->]].
  - destruct (Z.eqb_spec (Z.of_nat l + 0) 0); [lia|]. rewrite Z.sub_0_r. reflexivity.
  - change (is "e" ".") with false. cbv iota. destruct (Z.eqb_spec (Z.of_nat l + 0) 0); [lia|]. rewrite Z.sub_0_r. reflexivity.
Qed.
Lemma read_point a i f b rest : 0 <= a < 10 ^ Z.of_nat i -> 0 <= b < 10 ^ Z.of_nat f -> (0 < i)%nat -> tail rest ->
  readPos (digs i a ++ "."%char :: digs f b ++ rest) = Z.min fltMax (ofDec (a * 10 ^ Z.of_nat f + b) (exponent rest - Z.of_nat f)).
Proof.
  intros A B L T. unfold readPos. rewrite span_digs by exact A. rewrite (span_stop _ _ "."%char) by reflexivity. change (is "." ".") with true. cbv iota.
  rewrite span_digs by exact B. replace (0 * 10 ^ Z.of_nat i + a) with a by lia.
  assert (E : span (a * 10 ^ Z.of_nat f + b) (0 + Z.of_nat f) rest = (a * 10 ^ Z.of_nat f + b, Z.of_nat f, rest)).
  { replace (0 + Z.of_nat f) with (Z.of_nat f) by lia. destruct T as [->|[t ->]]; [reflexivity|apply span_stop; reflexivity]. }
  rewrite E. destruct (Z.eqb_spec (0 + Z.of_nat i + Z.of_nat f) 0); [lia|]. reflexivity.
Qed.
Lemma read_pointed m l f rest : (f < l)%nat -> 0 <= m < 10 ^ Z.of_nat l -> tail rest -> readPos (pointed m l f ++ rest) = Z.min fltMax (ofDec m (exponent rest - Z.of_nat f)).
Proof.
  intros F B T. destruct f as [|f].
  - cbn [pointed]. change (Z.of_nat 0) with 0. rewrite Z.sub_0_r. apply read_plain; try assumption; lia.
  - unfold pointed. rewrite <- app_assoc. set (g := S f) in *. pose proof (Z.pow_pos_nonneg 10 (Z.of_nat g) ltac:(lia) ltac:(lia)) as P. cbn [app].
    rewrite read_point; [| | |lia|exact T].
    + do 2 f_equal. pose proof (Z.div_mod m (10 ^ Z.of_nat g) ltac:(lia)). lia.
    + split; [apply Z.div_pos; lia|]. apply Z.div_lt_upper_bound; [lia|]. rewrite <- Z.pow_add_r by lia. replace (Z.of_nat g + Z.of_nat (l - g)) with (Z.of_nat l) by lia. lia.
    + apply Z.mod_pos_bound. exact P.
Qed.
Lemma pointed_head m l f : (f < l)%nat -> 0 <= m < 10 ^ Z.of_nat l -> exists c t, pointed m l f = c :: t /\ digit c <> None.
Proof.
  intros F B. destruct f as [|f]; cbn [pointed].
  - destruct l as [|l]; [lia|]. apply digs_head. exact B.
  - set (g := S f) in *. pose proof (Z.pow_pos_nonneg 10 (Z.of_nat g) ltac:(lia) ltac:(lia)) as P. destruct (l - g)%nat as [|j] eqn:J; [lia|].
    destruct (digs_head j (m / 10 ^ Z.of_nat g)) as (c & t & E & D).
    + split; [apply Z.div_pos; lia|]. apply Z.div_lt_upper_bound; [lia|]. rewrite <- Z.pow_add_r by lia. replace (Z.of_nat g + Z.of_nat (S j)) with (Z.of_nat l) by lia. lia.
    + rewrite E. exists c, (t ++ "."%char :: digs g (m mod 10 ^ Z.of_nat g)). split; [reflexivity|exact D].
Qed.
(** The text of the digits m and the exponent x reads as m * 10^(x-5). *)
Lemma show_read v : 1 <= v -> v <= 10 ^ 39 * one - 1 ->
  readPos (showPos v) = Z.min fltMax (ofDec (fst (six v)) (snd (six v) - 5)) /\ exists c t, showPos v = c :: t /\ digit c <> None.
Proof.
  intros A B. pose proof (six_spec v A B) as X. unfold showPos. destruct (six v) as [m x]. destruct X as (M & XR & _). cbn [fst snd].
  pose proof (trim_spec 5 m 6 ltac:(lia)) as T. change (10 ^ (Z.of_nat 6 - 1)) with 100000 in T. change (10 ^ Z.of_nat 6) with 1000000 in T. specialize (T M).
  destruct (trim 5 m 6) as [m' l]. destruct T as (L & E & R). change (Z.of_nat 6) with 6 in E.
  assert (G : ofDec m (x - 5) = ofDec m' (x + 1 - Z.of_nat l)). { rewrite E, ofDec_shift by lia. f_equal. lia. }
  assert (R0 : 0 <= m' < 10 ^ Z.of_nat l) by (pose proof (Z.pow_nonneg 10 (Z.of_nat l - 1)); lia). rewrite G.
  destruct (Z.leb_spec (-4) x) as [X4|X4]; cbn [andb].
  1: destruct (Z.ltb_spec x 6) as [X6|X6].
  1: destruct (Z.ltb_spec x 0) as [X0|X0].
  - split; [|exists "0"%char, ("."%char :: digs (Z.to_nat (- x - 1)) 0 ++ digs l m'); split; [reflexivity|discriminate]].
    replace ("0"%char :: "."%char :: digs (Z.to_nat (- x - 1)) 0 ++ digs l m') with (digs 1 0 ++ "."%char :: digs (Z.to_nat (- x - 1) + l) m' ++ []).
    2:{ rewrite app_nil_r. cbn [digs app]. change (digitChar (0 mod 10)) with "0"%char. cbn [app]. do 2 f_equal.
        clear - R0. set (j := Z.to_nat (- x - 1)). assert (K : forall j m, 0 <= m < 10 ^ Z.of_nat l -> digs (j + l) m = digs j 0 ++ digs l m).
        { clear. induction l as [|l IH]; intros j m R.
          - change (10 ^ Z.of_nat 0) with 1 in R. replace m with 0 by lia. rewrite Nat.add_0_r, app_nil_r. reflexivity.
          - rewrite Nat.add_succ_r. cbn [digs]. rewrite IH, app_assoc; [reflexivity|]. replace (Z.of_nat (S l)) with (1 + Z.of_nat l) in R by lia. rewrite Z.pow_add_r in R by lia. change (10 ^ 1) with 10 in R. split; [apply Z.div_pos; lia|apply Z.div_lt_upper_bound; lia]. }
        apply K. exact R0. }
    rewrite read_point; [|change (10 ^ Z.of_nat 1) with 10; lia| |lia|left; reflexivity].
    + cbn [exponent]. do 2 f_equal; lia.
    + split; [lia|]. eapply Z.lt_le_trans; [apply R0|]. apply Z.pow_le_mono_r; lia.
  - destruct (Z.leb_spec (Z.of_nat l) (x + 1)) as [C|C].
    + assert (BB : 0 <= m' * 10 ^ (x + 1 - Z.of_nat l) < 10 ^ Z.of_nat (Z.to_nat (x + 1))).
      { pose proof (Z.pow_pos_nonneg 10 (x + 1 - Z.of_nat l) ltac:(lia) ltac:(lia)). split; [nia|]. replace (Z.of_nat (Z.to_nat (x + 1))) with (Z.of_nat l + (x + 1 - Z.of_nat l)) by lia. rewrite Z.pow_add_r by lia. nia. }
      split.
      * rewrite <- (app_nil_r (digs _ _)), read_plain; [|exact BB|lia|left; reflexivity]. cbn [exponent]. rewrite ofDec_shift by lia. reflexivity.
      * destruct (Z.to_nat (x + 1)) as [|j] eqn:J; [lia|]. apply digs_head. exact BB.
    + split; [|apply pointed_head; [lia|exact R0]]. rewrite <- (app_nil_r (pointed _ _ _)), read_pointed; [|lia|exact R0|left; reflexivity]. cbn [exponent]. do 2 f_equal. lia.
  - split; [|destruct (pointed_head m' l (pred l)) as (c & t & Ec & D); [lia|exact R0|rewrite Ec; exists c; eexists; split; [reflexivity|exact D]]].
    rewrite read_pointed; [|lia|exact R0|right; eexists; reflexivity]. do 2 f_equal. destruct (Z.ltb_spec x 0); [lia|].
    cbn [exponent]. change (is "e" "e") with true. cbn [orb]. change (is "+" "-") with false. change (is "+" "+") with true. cbv iota.
    rewrite <- (app_nil_r (digs 2 _)), span_digs by (change (10 ^ Z.of_nat 2) with 100; lia). cbn [span fst]. lia.
  - split; [|destruct (pointed_head m' l (pred l)) as (c & t & Ec & D); [lia|exact R0|rewrite Ec; exists c; eexists; split; [reflexivity|exact D]]].
    rewrite read_pointed; [|lia|exact R0|right; eexists; reflexivity]. do 2 f_equal. destruct (Z.ltb_spec x 0); [|lia].
    cbn [exponent]. change (is "e" "e") with true. cbn [orb]. change (is "-" "-") with true. cbv iota.
    rewrite <- (app_nil_r (digs 2 _)), span_digs by (change (10 ^ Z.of_nat 2) with 100; lia). cbn [span fst]. lia.
Qed.

(** *** Back from the text *)
Lemma fltMax_big : fltMax <= 10 ^ 39 * one - 1. Proof. vm_compute. discriminate. Qed.
Lemma readFloat_pos v : 1 <= v -> v <= fltMax -> readFloat (showFloat v) = readPos (showPos v).
Proof.
  intros A B. unfold showFloat. destruct (Z.eqb_spec v 0); [lia|]. destruct (Z.ltb_spec v 0); [lia|].
  destruct (show_read v A) as [_ (c & t & E & D)]; [pose proof fltMax_big; lia|]. rewrite E. cbn [readFloat]. rewrite (digit_minus c D). reflexivity.
Qed.
Lemma readFloat_neg v : 1 <= v -> readFloat (showFloat (- v)) = - readPos (showPos v).
Proof.
  intros A. unfold showFloat. destruct (Z.eqb_spec (- v) 0); [lia|]. destruct (Z.ltb_spec (- v) 0); [|lia].
  cbn [readFloat]. change (is "-" "-") with true. cbv iota. rewrite Z.opp_involutive. reflexivity.
Qed.
Lemma isFloat_pow k : 0 <= k -> isFloat (2 ^ k).
Proof. intros K. exists 1, k. repeat split; lia. Qed.
Lemma fl_int x d : 0 < d -> isFloat x -> fl (x * d) d = x.
Proof. intros D F. rewrite <- (fl_fix x F) at 2. apply fl_ratio; lia. Qed.
Lemma ofDec_err m k : 0 < m -> 2 ^ 23 * dn k <= m * up k * one -> 2 ^ 24 * Z.abs (ofDec m k * dn k - m * up k * one) <= m * up k * one.
Proof. intros M H. unfold ofDec. rewrite fl_pos by (pose proof (dn_pos k); lia). apply flp_err; [apply dn_pos|exact H]. Qed.
(** [ofDec m k] has full precision only if the decimal has. *)
Lemma ofDec_big m k : 2 ^ 24 <= ofDec m k -> 2 ^ 23 * dn k <= m * up k * one.
Proof.
  intros H. destruct (Z.le_gt_cases (2 ^ 23 * dn k) (m * up k * one)) as [C|C]; [exact C|]. exfalso.
  pose proof (fl_mono (m * up k * one) (2 ^ 23 * dn k) (dn k) (dn_pos k) ltac:(lia)) as M. rewrite fl_int in M; [|apply dn_pos|apply isFloat_pow; lia]. unfold ofDec in H. lia.
Qed.
Lemma back_err v : 2 ^ 24 <= v -> v <= fltMax -> 197000 * Z.abs (readPos (showPos v) - v) <= v.
Proof.
  intros A B. pose proof fltMax_big as FB. destruct (show_read v ltac:(lia) ltac:(lia)) as [R _]. rewrite R. pose proof (six_spec v ltac:(lia) ltac:(lia)) as X.
  destruct (six v) as [m x]. cbn [fst snd]. destruct X as (M & XR & E). set (k := x - 5) in *. pose proof (dn_pos k) as D.
  replace (m * (one * up k)) with (m * up k * one) in E by ring.
  assert (H : 2 ^ 23 * dn k <= m * up k * one).
  { assert (VV : 2 ^ 24 * dn k <= v * dn k) by (apply Z.mul_le_mono_nonneg_r; lia). change (2 ^ 23) with 8388608. change (2 ^ 24) with 16777216 in VV. lia. }
  pose proof (ofDec_err m k ltac:(lia) H) as O. set (T := m * up k * one) in *. set (w := ofDec m k) in *.
  assert (G : 197000 * Z.abs (w - v) <= v).
  { apply Z.mul_le_mono_pos_r with (p := dn k); [exact D|]. replace (197000 * Z.abs (w - v) * dn k) with (197000 * Z.abs (w * dn k - v * dn k)) by (rewrite <- Z.mul_sub_distr_r, Z.abs_mul, (Z.abs_eq (dn k)) by lia; ring).
    set (W := w * dn k) in *. set (V := v * dn k) in *. change (2 ^ 24) with 16777216 in O. lia. }
  lia.
Qed.
(** Decimals of six digits come back. *)
Lemma six_unique v y : 1 <= v -> v <= 10 ^ 39 * one - 1 -> atLeast v y = true -> atLeast v (y + 1) = false -> decade 84 38 v = y.
Proof.
  intros A B H1 H2. destruct (decade_range v A B) as (S1 & S2 & _). set (x := decade 84 38 v) in *. destruct (Z.lt_trichotomy x y) as [C|[C|C]]; [|exact C|].
  - rewrite (atLeast_mono v y (x + 1)) in S2 by (try lia; assumption). discriminate.
  - rewrite (atLeast_mono v x (y + 1)) in H2 by (try lia; assumption). discriminate.
Qed.
Lemma rne_unique n d r : 0 < d -> 2 * Z.abs (r * d - n) < d -> rne n d = r.
Proof. intros D H. pose proof (rne_err n d D) as R. set (q := rne n d) in *. nia. Qed.
Lemma six_of M K : 100000 <= M < 1000000 -> 2 ^ 24 <= ofDec M K -> ofDec M K <= fltMax -> six (ofDec M K) = (M, K + 5).
Proof.
  intros BM A B. set (v := ofDec M K) in *. pose proof fltMax_big as FB. pose proof (ofDec_big M K A) as H. pose proof (ofDec_err M K ltac:(lia) H) as E. fold v in E.
  pose proof (dn_pos K) as D. pose proof (up_pos K) as U. pose proof one_pos as O1. change (2 ^ 24) with 16777216 in E.
  set (D1 := one * up K) in *. assert (DP : 0 < D1) by (unfold D1; nia). replace (M * up K * one) with (M * D1) in * by (unfold D1; ring).
  assert (NOT : atLeast v (K + 5 + 1) = false).
  { destruct (atLeast v (K + 5 + 1)) eqn:C; [|reflexivity]. exfalso. unfold atLeast in C. apply Z.leb_le in C. pose proof (up_dn K 6 ltac:(lia)) as UD. replace (K + 6) with (K + 5 + 1) in UD by lia. change (10 ^ 6) with 1000000 in UD.
    pose proof (dn_pos (K + 5 + 1)) as D6. assert (C2 : 1000000 * D1 * dn (K + 5 + 1) <= v * dn K * dn (K + 5 + 1)).
    { replace (1000000 * D1 * dn (K + 5 + 1)) with (one * (up (K + 5 + 1) * dn K)) by (rewrite UD; unfold D1; ring). nia. }
    apply Z.mul_le_mono_pos_r in C2; [|exact D6]. nia. }
  unfold six. destruct (atLeast v (K + 5)) eqn:C.
  - rewrite (six_unique v (K + 5) ltac:(lia) ltac:(lia) C NOT). replace (K + 5 - 5) with K by lia. fold D1.
    rewrite (rne_unique (v * dn K) D1 M DP) by nia. destruct (Z.eqb_spec M 1000000); [lia|]. reflexivity.
  - pose proof C as C'. unfold atLeast in C. apply Z.leb_gt in C. pose proof (up_dn K 5 ltac:(lia)) as UD. change (10 ^ 5) with 100000 in UD. pose proof (dn_pos (K + 5)) as D5.
    assert (C2 : v * dn K * dn (K + 5) < 100000 * D1 * dn (K + 5)).
    { replace (100000 * D1 * dn (K + 5)) with (one * (up (K + 5) * dn K)) by (rewrite UD; unfold D1; ring). nia. }
    apply Z.mul_lt_mono_pos_r in C2; [|exact D5]. assert (M = 100000) by nia. subst M.
    pose proof (up_dn (K - 1) 1 ltac:(lia)) as U1. replace (K - 1 + 1) with K in U1 by lia. change (10 ^ 1) with 10 in U1. pose proof (dn_pos (K - 1)) as D0. pose proof (up_pos (K - 1)) as U0.
    set (D2 := one * up (K - 1)) in *. assert (DP2 : 0 < D2) by (unfold D2; nia). assert (Q : D1 * dn (K - 1) = 10 * D2 * dn K) by (unfold D1, D2; replace (one * up K * dn (K - 1)) with (one * (up K * dn (K - 1))) by ring; rewrite U1; ring).
    (* v * dn (K-1) / D2 is within 10^6 / 2^24 of 10^6 *)
    assert (E2 : 16777216 * Z.abs (v * dn (K - 1) - 1000000 * D2) <= 1000000 * D2).
    { apply Z.mul_le_mono_pos_r with (p := dn K); [exact D|]. replace (16777216 * Z.abs (v * dn (K - 1) - 1000000 * D2) * dn K) with (16777216 * Z.abs ((v * dn K) * dn (K - 1) - 100000 * (10 * D2 * dn K))).
      2:{ replace (v * dn K * dn (K - 1) - 100000 * (10 * D2 * dn K)) with ((v * dn (K - 1) - 1000000 * D2) * dn K) by ring. rewrite Z.abs_mul, (Z.abs_eq (dn K)) by lia. ring. }
      replace (1000000 * D2 * dn K) with (100000 * (10 * D2 * dn K)) by ring. rewrite <- Q. replace (v * dn K * dn (K - 1) - 100000 * (D1 * dn (K - 1))) with ((v * dn K - 100000 * D1) * dn (K - 1)) by ring. rewrite Z.abs_mul, (Z.abs_eq (dn (K - 1))) by lia. nia. }
    assert (C4 : atLeast v (K + 5 - 1) = true).
    { unfold atLeast. apply Z.leb_le. pose proof (up_dn (K - 1) 5 ltac:(lia)) as U5. replace (K - 1 + 5) with (K + 5 - 1) in U5 by lia. change (10 ^ 5) with 100000 in U5. pose proof (dn_pos (K + 5 - 1)) as D4.
      apply Z.mul_le_mono_pos_r with (p := dn (K - 1)); [exact D0|]. replace (up (K + 5 - 1) * one * dn (K - 1)) with (100000 * D2 * dn (K + 5 - 1)) by (unfold D2; replace (up (K + 5 - 1) * one * dn (K - 1)) with (one * (up (K + 5 - 1) * dn (K - 1))) by ring; rewrite U5; ring).
      assert (100000 * D2 <= v * dn (K - 1)) by lia. nia. }
    rewrite (six_unique v (K + 5 - 1) ltac:(lia) ltac:(lia) C4). 2:{ replace (K + 5 - 1 + 1) with (K + 5) by lia. exact C'. }
    replace (K + 5 - 1 - 5) with (K - 1) by lia. fold D2. rewrite (rne_unique (v * dn (K - 1)) D2 1000000 DP2) by lia.
    rewrite Z.eqb_refl. f_equal. lia.
Qed.
Lemma norm6 m : 0 < m < 1000000 -> exists j, 0 <= j /\ 100000 <= m * 10 ^ j < 1000000.
Proof.
  intros H. destruct (Z.le_gt_cases 100000 m); [exists 0; lia|]. destruct (Z.le_gt_cases 10000 m); [exists 1; lia|]. destruct (Z.le_gt_cases 1000 m); [exists 2; lia|].
  destruct (Z.le_gt_cases 100 m); [exists 3; lia|]. destruct (Z.le_gt_cases 10 m); [exists 4; lia|]. exists 5. lia.
Qed.
Lemma back_exact m k : 0 < m < 1000000 -> 2 ^ 24 <= ofDec m k -> ofDec m k <= fltMax -> readPos (showPos (ofDec m k)) = ofDec m k.
Proof.
  intros M A B. destruct (norm6 m M) as (j & J & R). assert (E : ofDec m k = ofDec (m * 10 ^ j) (k - j)) by (rewrite ofDec_shift by lia; f_equal; lia).
  rewrite E in *. pose proof fltMax_big. destruct (show_read (ofDec (m * 10 ^ j) (k - j))) as [SR _]; [lia|lia|]. rewrite SR, six_of by assumption. cbn [fst snd]. replace (k - j + 5 - 5) with (k - j) by lia. lia.
Qed.

(** *** Reading a decimal *)
Lemma digits_inv s n : digits s n -> s <> [] -> exists t z d, s = t ++ [digitChar d] /\ digits t z /\ 0 <= d <= 9 /\ n = 10 * z + d.
Proof.
  intros D N. inversion D; [congruence|]. subst. exists s0, z, d. split; [|repeat split; assumption || lia].
  unfold digitChar. do 3 f_equal. lia.
Qed.
Lemma span_digits s n : digits s n -> forall rest acc c, span acc c (s ++ rest) = span (acc * 10 ^ Z.of_nat (length s) + n) (c + Z.of_nat (length s)) rest.
Proof.
  induction 1 as [|s z d D IH B]; intros rest acc c.
  - cbn [app length]. change (10 ^ Z.of_nat 0) with 1. f_equal; lia.
  - rewrite <- app_assoc, IH. cbn [app span]. rewrite digit_char by exact B. rewrite app_length. cbn [length]. replace (Z.of_nat (length s + 1)) with (1 + Z.of_nat (length s)) by lia. rewrite Z.pow_add_r by lia. change (10 ^ 1) with 10. f_equal; lia.
Qed.
Lemma digits_app a b n : digits (a ++ b) n -> exists x y, digits a x /\ digits b y /\ n = x * 10 ^ Z.of_nat (length b) + y.
Proof.
  revert n. induction b as [|c b IH] using rev_ind; intros n D.
  - rewrite app_nil_r in D. exists n, 0. split; [exact D|]. split; [constructor|]. cbn [length]. change (10 ^ Z.of_nat 0) with 1. lia.
  - rewrite app_assoc in D. inversion D as [E|s z d D' B E]; [destruct (a ++ b); discriminate|]. apply app_inj_tail in E. destruct E as [-> <-].
    destruct (IH z D') as (x & y & X & Y & ->). exists x, (10 * y + d). split; [exact X|]. split; [constructor; assumption|].
    rewrite app_length. cbn [length]. replace (Z.of_nat (length b + 1)) with (1 + Z.of_nat (length b)) by lia. rewrite Z.pow_add_r by lia. change (10 ^ 1) with 10. ring.
Qed.
Lemma plain_read s n f : plainIs s n f -> readPos s = Z.min fltMax (ofDec n (- Z.of_nat f)) /\ exists c t, s = c :: t /\ is c "-" = false.
Proof.
  intros [(-> & N & D) | (a & b & -> & <- & N & D)].
  - split.
    + unfold readPos. pose proof (span_digits s n D [] 0 0) as E. rewrite app_nil_r in E. cbn [span] in E. rewrite E. destruct s as [|c t]; [congruence|]. cbn [length].
      destruct (Z.eqb_spec (0 + Z.of_nat (S (length t)) + 0) 0); [lia|]. cbn [exponent]. do 2 f_equal; lia.
    + destruct (digits_spec s n D) as (_ & _ & F). destruct s as [|c t]; [congruence|]. exists c, t. split; [reflexivity|]. inversion F; subst. apply digit_minus. assumption.
  - destruct (digits_app a b n D) as (x & y & X & Y & ->). split.
    + unfold readPos. rewrite (span_digits a x X). rewrite (span_stop _ _ "."%char) by reflexivity. change (is "." ".") with true. cbv iota.
      pose proof (span_digits b y Y [] (0 * 10 ^ Z.of_nat (length a) + x) 0) as E. rewrite app_nil_r in E. cbn [span] in E. rewrite E.
      destruct (Z.eqb_spec (0 + Z.of_nat (length a) + (0 + Z.of_nat (length b))) 0) as [C|C]; [exfalso; destruct a, b; cbn [length] in C; try lia; apply N; reflexivity|].
      cbn [exponent]. do 2 f_equal; lia.
    + destruct (digits_spec a x X) as (_ & _ & F). destruct a as [|c t]; cbn [app].
      * exists "."%char, b. split; reflexivity.
      * exists c, (t ++ "."%char :: b). split; [reflexivity|]. inversion F; subst. apply digit_minus. assumption.
Qed.
Lemma real_read s n f : realIs s n f -> Z.abs n * one <= fltMax * 10 ^ Z.of_nat f -> readFloat s = ofDec n (- Z.of_nat f).
Proof.
  assert (UP : up (- Z.of_nat f) = 1) by (unfold up; rewrite Z.max_r by lia; reflexivity). assert (DN : dn (- Z.of_nat f) = 10 ^ Z.of_nat f) by (unfold dn; rewrite Z.max_l by lia; f_equal; lia).
  assert (G : forall n, Z.abs n * one <= fltMax * 10 ^ Z.of_nat f -> ofDec n (- Z.of_nat f) <= fltMax).
  { intros z H. unfold ofDec. rewrite UP, DN. pose proof (Z.pow_pos_nonneg 10 (Z.of_nat f) ltac:(lia) ltac:(lia)) as P. pose proof one_pos.
    rewrite <- (fl_int fltMax (10 ^ Z.of_nat f) P). 2:{ exists (2 ^ 24 - 1), 253. repeat split; lia. } apply fl_mono; [exact P|]. nia. }
  intros [H|(t & -> & H)] B.
  - destruct (plain_read s n f H) as [R (c & t & -> & M)]. cbn [readFloat]. rewrite M, R. apply Z.min_r, G, B.
  - cbn [readFloat]. change (is "-" "-") with true. cbv iota. destruct (plain_read t (- n) f H) as [R _]. rewrite R, Z.min_r by (apply G; rewrite Z.abs_opp; exact B). rewrite ofDec_opp. lia.
Qed.

(** *** The notation *)
Definition okChar (c : ascii) : Prop := In c (list_ascii_of_string "0123456789.-").
Lemma digs_ok l : forall m, 0 <= m -> Forall okChar (digs l m).
Proof.
  induction l as [|l IH]; intros m M; cbn [digs]; [constructor|]. apply Forall_app. split; [apply IH, Z.div_pos; lia|]. constructor; [|constructor].
  apply digit_good. pose proof (Z.mod_pos_bound m 10 ltac:(lia)). rewrite digit_of by lia. discriminate.
Qed.
Lemma pointed_ok m l f : 0 <= m -> Forall okChar (pointed m l f).
Proof.
  intros M. destruct f as [|f]; cbn [pointed]; [apply digs_ok, M|]. pose proof (Z.pow_pos_nonneg 10 (Z.of_nat (S f)) ltac:(lia) ltac:(lia)).
  apply Forall_app. split; [apply digs_ok, Z.div_pos; lia|]. constructor; [cbn; tauto|]. apply digs_ok, Z.mod_pos_bound. lia.
Qed.
Lemma six_trim v : 1 <= v -> v <= 10 ^ 39 * one - 1 -> 0 <= fst (trim 5 (fst (six v)) 6).
Proof.
  intros A B. pose proof (six_spec v A B) as X. destruct (six v) as [m x]. destruct X as (M & _). cbn [fst]. pose proof (trim_spec 5 m 6 ltac:(lia)) as T.
  change (10 ^ (Z.of_nat 6 - 1)) with 100000 in T. change (10 ^ Z.of_nat 6) with 1000000 in T. specialize (T M). destruct (trim 5 m 6) as [m' l]. destruct T as (_ & _ & T). cbn [fst].
  pose proof (Z.pow_nonneg 10 (Z.of_nat l - 1)). lia.
Qed.
Lemma show_fixed v : 1 <= v -> v <= 10 ^ 39 * one - 1 -> -4 <= snd (six v) < 6 -> Forall okChar (showPos v).
Proof.
  intros A B X. pose proof (six_trim v A B) as T. unfold showPos. destruct (six v) as [m x]. cbn [fst snd] in *. destruct (trim 5 m 6) as [m' l]. cbn [fst] in T.
  destruct (Z.leb_spec (-4) x); [|lia]. destruct (Z.ltb_spec x 6); [|lia]. cbn [andb]. destruct (Z.ltb_spec x 0).
  - constructor; [cbn; tauto|]. constructor; [cbn; tauto|]. apply Forall_app. split; apply digs_ok; lia.
  - destruct (Z.leb_spec (Z.of_nat l) (x + 1)); [|apply pointed_ok; lia]. apply digs_ok. pose proof (Z.pow_nonneg 10 (x + 1 - Z.of_nat l)). nia.
Qed.
Lemma show_exp v : 1 <= v -> v <= 10 ^ 39 * one - 1 -> snd (six v) < -4 \/ 6 <= snd (six v) -> In "e"%char (showPos v).
Proof.
  intros A B X. unfold showPos. destruct (six v) as [m x]. cbn [fst snd] in *. destruct (trim 5 m 6) as [m' l].
  assert (E : ((-4 <=? x) && (x <? 6)) = false) by (destruct (Z.leb_spec (-4) x), (Z.ltb_spec x 6); try reflexivity; lia). rewrite E. apply in_app_iff. right. left. reflexivity.
Qed.
Lemma six_exp v : 1 <= v -> v <= 10 ^ 39 * one - 1 -> snd (six v) = decade 84 38 v \/ snd (six v) = decade 84 38 v + 1 /\ fst (six v) = 100000.
Proof. intros A B. unfold six. destruct (Z.eqb_spec (rne (v * dn (decade 84 38 v - 5)) (one * up (decade 84 38 v - 5))) 1000000); cbn [fst snd]; [right; split; reflexivity|left; reflexivity]. Qed.
Lemma fixed_range v : 1 <= v -> one <= v * 10000 -> v <= 999999 * one -> -4 <= snd (six v) < 6.
Proof.
  intros A L H. assert (B : v <= 10 ^ 39 * one - 1) by (assert (999999 * one <= 10 ^ 39 * one - 1) by (vm_compute; discriminate); lia).
  destruct (decade_range v A B) as (S1 & S2 & _). pose proof (decade_frac v _ S1 S2) as FR. set (x := decade 84 38 v) in *.
  assert (LX : -4 <= x). { destruct (Z.le_gt_cases (-4) x); [assumption|]. assert (Q : atLeast v (-4) = true) by (unfold atLeast; apply Z.leb_le; change (up (-4)) with 1; change (dn (-4)) with 10000; lia). rewrite (atLeast_mono v (-4) (x + 1)) in S2 by (try lia; assumption). discriminate. }
  assert (HX : x <= 5). { destruct (Z.le_gt_cases x 5); [assumption|]. assert (Q : atLeast v 6 = true) by (apply (atLeast_mono v x 6); try lia; assumption). unfold atLeast in Q. apply Z.leb_le in Q. change (up 6) with 1000000 in Q. change (dn 6) with 1 in Q. pose proof one_pos. lia. }
  destruct (six_exp v A B) as [E|[E E2]]; fold x in E; rewrite E; [lia|]. split; [lia|].
  destruct (Z.eq_dec x 5) as [X5|X5]; [exfalso|lia]. revert E. unfold six. fold x. rewrite X5. change (dn (5 - 5)) with 1. change (up (5 - 5)) with 1.
  pose proof (rne_le (v * 1) (one * 1) 999999 ltac:(pose proof one_pos; lia) ltac:(lia)). destruct (Z.eqb_spec (rne (v * 1) (one * 1)) 1000000); cbn [snd]; lia.
Qed.
Lemma exp_range v : 1 <= v -> v <= 10 ^ 39 * one - 1 -> v * 1000000 <= 99 * one \/ 1000000 * one <= v -> snd (six v) < -4 \/ 6 <= snd (six v).
Proof.
  intros A B C. pose proof one_pos as O1. destruct (decade_range v A B) as (S1 & S2 & _). pose proof (decade_frac v _ S1 S2) as FR. set (x := decade 84 38 v) in *.
  destruct C as [C|C].
  - left. assert (LX : x <= -5). { destruct (Z.le_gt_cases x (-5)); [assumption|]. assert (Q : atLeast v (-4) = true) by (apply (atLeast_mono v x (-4)); try lia; assumption). unfold atLeast in Q. apply Z.leb_le in Q. change (up (-4)) with 1 in Q. change (dn (-4)) with 10000 in Q. lia. }
    destruct (six_exp v A B) as [E|[E E2]]; fold x in E; rewrite E; [lia|]. destruct (Z.eq_dec x (-5)) as [X5|X5]; [exfalso|lia].
    pose proof (six_spec v A B) as SP. destruct (six v) as [m y]. cbn [fst snd] in *. subst m y. rewrite X5 in SP. change (-5 + 1 - 5) with (-9) in SP. change (dn (-9)) with 1000000000 in SP. change (up (-9)) with 1 in SP. lia.
  - right. assert (LX : 6 <= x). { destruct (Z.le_gt_cases 6 x); [assumption|]. assert (Q : atLeast v 6 = true) by (unfold atLeast; apply Z.leb_le; change (up 6) with 1000000; change (dn 6) with 1; lia). rewrite (atLeast_mono v 6 (x + 1)) in S2 by (try lia; assumption). discriminate. }
    destruct (six_exp v A B) as [E|[E E2]]; fold x in E; rewrite E; lia.
Qed.
