(** IEEE-754 single precision arithmetic (round to nearest, ties to even), for finite values.

    A float is represented by the integer number of units of 2^-149 (the smallest subnormal) that it is
    worth, so every finite float is exact. Infinities and NaNs do not exist here: the operations are those
    of the hardware as long as no result exceeds the largest finite float. *)
From Verif Require Import Base.
Local Open Scope Z_scope.

Definition one : Z := 2 ^ 149.
(** Nearest integer to n/d, ties to even; d > 0. *)
Definition rne (n d : Z) : Z :=
  let q := n / d in let r := n mod d in
  if 2 * r <? d then q else if d <? 2 * r then q + 1 else if Z.even q then q else q + 1.
(** The spacing exponent for the value n/d >= 0: 24 significant bits, subnormals below. *)
Definition expo (n d : Z) : Z := Z.max 0 (Z.log2 (n / d) - 23).
Definition flp (n d : Z) : Z := let e := expo n d in rne n (d * 2 ^ e) * 2 ^ e.
(** The float nearest to n/d units. *)
Definition fl (n d : Z) : Z := if n <? 0 then - flp (- n) d else flp n d.
Definition fadd (x y : Z) : Z := fl (x + y) 1.
Definition fsub (x y : Z) : Z := fl (x - y) 1.
Definition fmul (x y : Z) : Z := fl (x * y) one.
Definition fdiv (x y : Z) : Z := fl (x * one) y.

Lemma rne_mono n n' d : 0 < d -> n <= n' -> rne n d <= rne n' d.
Proof.
  intros D H. unfold rne. pose proof (Z.div_le_mono n n' d D H) as Q. pose proof (Z.mod_pos_bound n d D). pose proof (Z.mod_pos_bound n' d D).
  pose proof (Z.div_mod n d ltac:(lia)). pose proof (Z.div_mod n' d ltac:(lia)).
  destruct (Z.eq_dec (n / d) (n' / d)) as [E|N].
  - rewrite <- E in *. assert (n mod d <= n' mod d) by lia.
    destruct (Z.ltb_spec (2 * (n mod d)) d), (Z.ltb_spec (2 * (n' mod d)) d), (Z.ltb_spec d (2 * (n mod d))), (Z.ltb_spec d (2 * (n' mod d))); destruct (Z.even (n / d)); lia.
  - destruct (2 * (n mod d) <? d), (2 * (n' mod d) <? d), (d <? 2 * (n mod d)), (d <? 2 * (n' mod d)), (Z.even (n / d)), (Z.even (n' / d)); lia.
Qed.
Lemma rne_exact k d : 0 < d -> rne (k * d) d = k.
Proof. intros D. unfold rne. rewrite Z.div_mul, Z.mod_mul by lia. destruct (Z.ltb_spec (2 * 0) d); lia. Qed.
Lemma rne_le n d k : 0 < d -> n <= k * d -> rne n d <= k.
Proof. intros D H. rewrite <- (rne_exact k d D). apply rne_mono; assumption. Qed.
Lemma rne_ge n d k : 0 < d -> k * d <= n -> k <= rne n d.
Proof. intros D H. rewrite <- (rne_exact k d D). apply rne_mono; assumption. Qed.
Lemma flp_nonneg n d : 0 < d -> 0 <= n -> 0 <= flp n d.
Proof.
  intros D H. unfold flp. cbv zeta. assert (E: 0 <= expo n d) by (unfold expo; lia). pose proof (Z.pow_pos_nonneg 2 (expo n d) ltac:(lia) E).
  apply Z.mul_nonneg_nonneg; [|lia]. apply rne_ge; [nia|lia].
Qed.
Lemma flp_mono n n' d : 0 < d -> 0 <= n <= n' -> flp n d <= flp n' d.
Proof.
  intros D [H0 H]. unfold flp. cbv zeta. set (e := expo n d). set (e' := expo n' d).
  assert (E0: 0 <= e) by (unfold e, expo; lia). pose proof (Z.pow_pos_nonneg 2 e ltac:(lia) E0) as P.
  pose proof (Z.div_le_mono n n' d D H) as Q. pose proof (Z.log2_le_mono _ _ Q) as L.
  assert (EE: e <= e') by (unfold e, e', expo; lia). pose proof (Z.pow_pos_nonneg 2 e' ltac:(lia) ltac:(lia)) as P'.
  destruct (Z.eq_dec e e') as [<-|N].
  - apply Z.mul_le_mono_nonneg_r; [lia|]. apply rne_mono; nia.
  - assert (L': Z.log2 (n' / d) = e' + 23) by (unfold e', expo in *; lia).
    assert (L0: Z.log2 (n / d) <= e + 23) by (unfold e, expo in *; lia).
    assert (A: rne n (d * 2 ^ e) * 2 ^ e <= 2 ^ (e + 24)).
    { rewrite Z.pow_add_r by lia. rewrite Z.mul_comm. apply Z.mul_le_mono_nonneg_l; [lia|]. apply rne_le; [nia|].
      assert (B: n / d < 2 ^ (e + 24)).
      { destruct (Z.eq_dec (n / d) 0) as [->|NZ]; [apply Z.pow_pos_nonneg; lia|]. pose proof (Z.div_pos n d H0 D). apply Z.log2_lt_pow2; lia. }
      rewrite Z.pow_add_r in B by lia. pose proof (Z.mod_pos_bound n d D). pose proof (Z.div_mod n d ltac:(lia)). set (X := 2 ^ e * 2 ^ 24) in *.
      replace (2 ^ 24 * (d * 2 ^ e)) with (d * X) by (unfold X; ring). nia. }
    assert (B: 2 ^ (e' + 23) <= rne n' (d * 2 ^ e') * 2 ^ e').
    { rewrite Z.pow_add_r by lia. rewrite Z.mul_comm. apply Z.mul_le_mono_nonneg_r; [lia|]. apply rne_ge; [nia|].
      assert (B: 2 ^ (e' + 23) <= n' / d).
      { apply Z.log2_le_pow2; [|lia]. destruct (Z.le_gt_cases (n' / d) 0) as [X|X]; [|exact X]. rewrite Z.log2_nonpos in L' by exact X. lia. }
      rewrite Z.pow_add_r in B by lia. pose proof (Z.mod_pos_bound n' d D). pose proof (Z.div_mod n' d ltac:(lia)). set (X := 2 ^ e' * 2 ^ 23) in *.
      replace (2 ^ 23 * (d * 2 ^ e')) with (d * X) by (unfold X; ring). nia. }
    assert (C: 2 ^ (e + 24) <= 2 ^ (e' + 23)) by (apply Z.pow_le_mono_r; lia). lia.
Qed.
Lemma fl_mono n n' d : 0 < d -> n <= n' -> fl n d <= fl n' d.
Proof.
  intros D H. unfold fl. destruct (Z.ltb_spec n 0), (Z.ltb_spec n' 0); try lia.
  - apply Z.opp_le_mono. rewrite !Z.opp_involutive. apply flp_mono; lia.
  - pose proof (flp_nonneg (- n) d D ltac:(lia)). pose proof (flp_nonneg n' d D ltac:(lia)). lia.
  - apply flp_mono; lia.
Qed.
Lemma fl_opp n d : 0 < d -> fl (- n) d = - fl n d.
Proof.
  intros D. unfold fl. destruct (Z.ltb_spec n 0), (Z.ltb_spec (- n) 0); try lia.
  - rewrite Z.opp_involutive. reflexivity.
  - assert (n = 0) by lia. subst. pose proof (rne_exact 0 (d * 2 ^ expo 0 d)) as R. unfold flp. cbv zeta. change (- 0) with 0. assert (P: 0 < 2 ^ expo 0 d) by (apply Z.pow_pos_nonneg; unfold expo; lia). rewrite Z.mul_0_l in R. rewrite R by nia. reflexivity.
Qed.
Lemma fl_abs n b d v : 0 < d -> fl b d = v -> Z.abs n <= b -> Z.abs (fl n d) <= v.
Proof.
  intros D E H. pose proof (fl_mono n b d D ltac:(lia)). pose proof (fl_mono (- b) n d D ltac:(lia)) as X. rewrite fl_opp in X by exact D. lia.
Qed.
(** Representable values are fixed. *)
Definition isFloat (x : Z) : Prop := exists m e, 0 <= e /\ Z.abs m < 2 ^ 24 /\ x = m * 2 ^ e.
Lemma flp_fix m e : 0 <= e -> 0 <= m < 2 ^ 24 -> flp (m * 2 ^ e) 1 = m * 2 ^ e.
Proof.
  intros E M. unfold flp. cbv zeta. set (k := expo (m * 2 ^ e) 1). pose proof (Z.pow_pos_nonneg 2 e ltac:(lia) E) as P.
  assert (K: 0 <= k <= e).
  { unfold k, expo. rewrite Z.div_1_r. destruct (Z.eq_dec m 0) as [->|NZ]; [cbn; lia|]. rewrite Z.log2_mul_pow2 by lia. assert (Z.log2 m < 24) by (apply Z.log2_lt_pow2; lia). lia. }
  replace (m * 2 ^ e) with ((m * 2 ^ (e - k)) * (1 * 2 ^ k)) at 1.
  2:{ rewrite Z.mul_1_l, <- Z.mul_assoc, <- Z.pow_add_r by lia. f_equal. f_equal. lia. }
  rewrite rne_exact by (rewrite Z.mul_1_l; apply Z.pow_pos_nonneg; lia). rewrite <- Z.mul_assoc, <- Z.pow_add_r by lia. f_equal. f_equal. lia.
Qed.
Lemma fl_fix x : isFloat x -> fl x 1 = x.
Proof.
  intros (m & e & E & M & ->). pose proof (Z.pow_pos_nonneg 2 e ltac:(lia) E) as P. unfold fl. destruct (Z.ltb_spec (m * 2 ^ e) 0) as [H|H].
  - rewrite <- Z.mul_opp_l, flp_fix by nia. lia.
  - apply flp_fix; nia.
Qed.
Lemma fadd_0_l x : isFloat x -> fadd 0 x = x.
Proof. intros F. unfold fadd. rewrite Z.add_0_l. apply fl_fix, F. Qed.
(** Results are floats. *)
Lemma rne_bound n d b : 0 < d -> 0 <= n <= b * d -> 0 <= rne n d <= b.
Proof. intros D H. split; [apply rne_ge; lia|apply rne_le; lia]. Qed.
Lemma flp_float n d : 0 < d -> 0 <= n -> isFloat (flp n d).
Proof.
  intros D H. unfold flp. cbv zeta. set (e := expo n d). assert (E0: 0 <= e) by (unfold e, expo; lia). pose proof (Z.pow_pos_nonneg 2 e ltac:(lia) E0) as P.
  assert (B: n / d < 2 ^ (e + 24)).
  { destruct (Z.eq_dec (n / d) 0) as [->|NZ]; [apply Z.pow_pos_nonneg; lia|]. pose proof (Z.div_pos n d H D). apply Z.log2_lt_pow2; [lia|]. unfold e, expo. lia. }
  rewrite Z.pow_add_r in B by lia. pose proof (Z.mod_pos_bound n d D). pose proof (Z.div_mod n d ltac:(lia)).
  assert (R: 0 <= rne n (d * 2 ^ e) <= 2 ^ 24).
  { apply rne_bound; [nia|]. split; [lia|]. replace (2 ^ 24 * (d * 2 ^ e)) with (d * (2 ^ e * 2 ^ 24)) by ring. nia. }
  destruct (Z.eq_dec (rne n (d * 2 ^ e)) (2 ^ 24)) as [->|NE].
  - exists (2 ^ 23), (e + 1). split; [lia|]. split; [reflexivity|]. rewrite Z.pow_add_r by lia. change (2 ^ 24) with (2 ^ 23 * 2 ^ 1). ring.
  - exists (rne n (d * 2 ^ e)), e. split; [lia|]. split; [lia|reflexivity].
Qed.
Lemma fl_float n d : 0 < d -> isFloat (fl n d).
Proof.
  intros D. unfold fl. destruct (Z.ltb_spec n 0) as [H|H]; [|apply flp_float; lia]. destruct (flp_float (- n) d D ltac:(lia)) as (m & e & E & M & ->).
  exists (- m), e. split; [exact E|]. split; [lia|lia].
Qed.
Lemma one_pos : 0 < one. Proof. reflexivity. Qed.
Lemma fmul_float x y : isFloat (fmul x y).
Proof. apply fl_float, one_pos. Qed.
Lemma fmul_unit x y : Z.abs x <= one -> Z.abs y <= one -> Z.abs (fmul x y) <= one.
Proof.
  intros X Y. apply (fl_abs _ (one * one)); [exact one_pos|vm_compute; reflexivity|]. rewrite Z.abs_mul. apply Z.mul_le_mono_nonneg; lia.
Qed.
