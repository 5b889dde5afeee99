(** C86: fractions in messages. *)
From Coq Require Import Ascii String.
From Verif Require Import Base JsonModel JsonSpec CtlModel CtlSpec CtlProofs F32 FtxModel FtxSpec FtxProofs VidSpec.
Local Open Scope list_scope.
Local Open Scope Z_scope.

(** [ofDec m k] is the float nearest to m * 10^k. *)
Theorem C86_nearest m k : nearest (ofDec m k) (m * up k) (dn k).
Proof. split; [apply fl_float, dn_pos|]. intros w W. apply fl_near; [apply dn_pos|exact W]. Qed.
Print Assumptions C86_nearest.

(** The text of a decimal number in a message is read as the float nearest to it, however many digits it has, as long
    as it is not beyond the largest float. *)
Theorem C86_text_is_read_as_nearest s n f : realIs s n f -> Z.abs n * one <= (2 ^ 24 - 1) * 2 ^ 253 * 10 ^ Z.of_nat f ->
  exists v, toFloat (Val VT_NUMBER s) = Some v /\ nearest v n (10 ^ Z.of_nat f).
Proof.
  intros R B. exists (ofDec n (- Z.of_nat f)). split; [cbn [toFloat]; f_equal; apply real_read; assumption|].
  pose proof (C86_nearest n (- Z.of_nat f)) as N. replace (up (- Z.of_nat f)) with 1 in N by (unfold up; rewrite Z.max_r by lia; reflexivity).
  replace (dn (- Z.of_nat f)) with (10 ^ Z.of_nat f) in N by (unfold dn; rewrite Z.max_l by lia; f_equal; lia). rewrite Z.mul_1_r in N. exact N.
Qed.
Print Assumptions C86_text_is_read_as_nearest.
Example C86_text_is_read_ex : realIs (lit "-0.25") (-25) 2 /\ toFloat (Val VT_NUMBER (lit "-0.25")) = Some (- (one / 4)).
Proof.
  split; [|vm_compute; reflexivity]. right. exists (lit "0.25"). split; [reflexivity|]. right. exists (lit "0"), (lit "25"). split; [reflexivity|]. split; [reflexivity|]. split; [discriminate|].
  change (lit "0" ++ lit "25") with ((([] ++ [ascii_of_N (48 + Z.to_N 0)]) ++ [ascii_of_N (48 + Z.to_N 2)]) ++ [ascii_of_N (48 + Z.to_N 5)]).
  change (- -25) with (10 * (10 * (10 * 0 + 0) + 2) + 5). repeat constructor; lia.
Qed.

(** A fraction given to an API call arrives within one part in 197000 of what was given. Missing: equality. *)
Theorem C86_value_arrives_close_partial v : isFloat v -> ordinary v ->
  exists w, toFloat (floatNode v) = Some w /\ isFloat w /\ 197000 * Z.abs (w - v) <= Z.abs v.
Proof.
  intros _ O. exists (readFloat (showFloat v)). split; [reflexivity|]. unfold ordinary in O. change ((2 ^ 24 - 1) * 2 ^ 253) with fltMax in O.
  assert (F : forall s, isFloat (readPos s)).
  { intros s. unfold readPos. destruct (span 0 0 s) as [[a n] r]. destruct (match r with [] => (a, 0, r) | c :: t => if is c "." then span a 0 t else (a, 0, r) end) as [[b f] r'].
    destruct (n + f =? 0); [exists 0, 0; repeat split; lia|]. destruct (Z.min_spec fltMax (ofDec b (exponent r' - f))) as [[_ ->]|[_ ->]]; [exists (2 ^ 24 - 1), 253; repeat split; lia|apply fl_float, dn_pos]. }
  destruct (Z.lt_trichotomy v 0) as [C|[C|C]].
  - pose proof (readFloat_neg (- v) ltac:(lia)) as RN. rewrite Z.opp_involutive in RN. rewrite RN. split.
    + destruct (F (showPos (- v))) as (a & k & K & A & E). exists (- a), k. repeat split; lia.
    + pose proof (back_err (- v) ltac:(lia) ltac:(lia)). lia.
  - subst v. cbn in O. lia.
  - rewrite readFloat_pos by lia. split; [apply F|]. pose proof (back_err v ltac:(lia) ltac:(lia)). lia.
Qed.
Print Assumptions C86_value_arrives_close_partial.
Example C86_value_arrives_close_ex : isFloat (fl one 3) /\ ordinary (fl one 3).
Proof. split; [apply fl_float; lia|]. vm_compute. split; discriminate. Qed.

(** A fraction of at most six significant digits arrives exactly. *)
Theorem C86_short_decimal_arrives v : shortDecimal v -> ordinary v -> toFloat (floatNode v) = Some v.
Proof.
  intros (m & k & M & E) O. unfold ordinary in O. change ((2 ^ 24 - 1) * 2 ^ 253) with fltMax in O. cbn [toFloat floatNode]. f_equal.
  destruct (Z.lt_trichotomy m 0) as [C|[C|C]].
  - pose proof (ofDec_opp m k) as OO. rewrite <- E in OO. assert (P : 0 <= - v) by (rewrite <- OO; unfold ofDec; rewrite fl_pos; [apply flp_nonneg|]; pose proof (dn_pos k); pose proof (up_pos k); pose proof one_pos; nia).
    pose proof (readFloat_neg (- v) ltac:(lia)) as RN. rewrite Z.opp_involutive in RN. rewrite RN, <- OO, back_exact by lia. lia.
  - subst m. replace v with 0 in O; [cbn in O; lia|]. rewrite E. unfold ofDec. cbn [Z.mul]. unfold fl, flp. cbn [Z.ltb Z.compare]. unfold rne. rewrite Z.mod_0_l, Z.div_0_l by (pose proof (dn_pos k); pose proof (Z.pow_pos_nonneg 2 (expo 0 (dn k)) ltac:(lia) ltac:(unfold expo; lia)); nia).
    destruct (2 * 0 <? dn k * 2 ^ expo 0 (dn k)); [reflexivity|]. destruct (dn k * 2 ^ expo 0 (dn k) <? 2 * 0) eqn:Q; [|reflexivity]. apply Z.ltb_lt in Q. pose proof (dn_pos k). pose proof (Z.pow_pos_nonneg 2 (expo 0 (dn k)) ltac:(lia) ltac:(unfold expo; lia)). nia.
  - assert (P : 0 <= v) by (rewrite E; unfold ofDec; rewrite fl_pos; [apply flp_nonneg|]; pose proof (dn_pos k); pose proof (up_pos k); pose proof one_pos; nia).
    rewrite readFloat_pos by lia. rewrite E, back_exact; lia.
Qed.
Print Assumptions C86_short_decimal_arrives.
(** 0.1, whose float is not 1/10. *)
Example C86_short_decimal_ex : shortDecimal (fl one 10) /\ ordinary (fl one 10) /\ fl one 10 * 10 <> one /\ showFloat (fl one 10) = lit "0.1".
Proof. split; [exists 1, (-1); split; [lia|vm_compute; reflexivity]|]. split; [vm_compute; split; discriminate|]. split; [vm_compute; discriminate|vm_compute; reflexivity]. Qed.
Theorem C86_zero_arrives : toFloat (floatNode 0) = Some 0.
Proof. vm_compute. reflexivity. Qed.

(** Equality fails: one third of the width of a 1920 pixel layout becomes 639 pixels. *)
Theorem C86_value_arrives_refuted : exists v, isFloat v /\ ordinary v /\ pix v 1920 = 640 /\
  exists w, toFloat (floatNode v) = Some w /\ w <> v /\ pix w 1920 = 639.
Proof.
  exists (fl one 3). split; [apply fl_float; lia|]. split; [vm_compute; split; discriminate|]. split; [vm_compute; reflexivity|].
  exists (readFloat (showFloat (fl one 3))). split; [reflexivity|]. split; vm_compute; [discriminate|reflexivity].
Qed.
Print Assumptions C86_value_arrives_refuted.

(** What the program writes for a fraction from 0.0001 to 999999 is a number its own parser accepts. *)
Theorem C86_text_is_a_number v : v = 0 \/ (one <= Z.abs v * 10000 /\ Z.abs v <= 999999 * one) -> goodNumber (showFloat v).
Proof.
  intros [->|[L H]]; [split; [discriminate|repeat constructor]|]. assert (B : 999999 * one <= 10 ^ 39 * one - 1) by (vm_compute; discriminate). pose proof one_pos as O1.
  assert (G : forall u, one <= u * 10000 -> u <= 999999 * one -> goodNumber (showPos u)).
  { intros u U1 U2. split; [destruct (show_read u ltac:(lia) ltac:(lia)) as [_ (c & t & E & _)]; rewrite E; discriminate|]. apply show_fixed; [lia|lia|apply fixed_range; lia]. }
  unfold showFloat. destruct (Z.eqb_spec v 0); [lia|]. destruct (Z.ltb_spec v 0).
  - destruct (G (- v)) as [_ F]; [lia|lia|]. split; [discriminate|]. constructor; [cbn; tauto|exact F].
  - apply G; lia.
Qed.
Print Assumptions C86_text_is_a_number.
Example C86_text_is_a_number_ex : showFloat (fl one 3) = lit "0.333333" /\ one <= fl one 3 * 10000 /\ showFloat (- (one + one / 2)) = lit "-1.5".
Proof. vm_compute. split; [reflexivity|]. split; [discriminate|reflexivity]. Qed.
(** For smaller and larger ones it writes a text its own parser takes for no value at all. *)
Theorem C86_text_is_a_number_refuted v : v <> 0 -> Z.abs v <= (2 ^ 24 - 1) * 2 ^ 253 ->
  Z.abs v * 1000000 <= 99 * one \/ 1000000 * one <= Z.abs v -> interpretValue (showFloat v) = None.
Proof.
  intros N B C. change ((2 ^ 24 - 1) * 2 ^ 253) with fltMax in B. pose proof fltMax_big.
  assert (E : In "e"%char (showFloat v) /\ exists c t, showFloat v = c :: t /\ (c = "-"%char \/ digit c <> None)).
  { unfold showFloat. destruct (Z.eqb_spec v 0); [lia|]. destruct (Z.ltb_spec v 0).
    - split; [right; apply show_exp; [lia|lia|apply exp_range; lia]|]. exists "-"%char. eexists. split; [reflexivity|left; reflexivity].
    - split; [apply show_exp; [lia|lia|apply exp_range; lia]|]. destruct (show_read v ltac:(lia) ltac:(lia)) as [_ (c & t & E & D)]. exists c, t. split; [exact E|right; exact D]. }
  destruct E as [I (c & t & E & D)]. unfold interpretValue, streq.
  assert (U : upper c <> "N"%char /\ upper c <> "T"%char /\ upper c <> "F"%char).
  { destruct D as [->|D]; [vm_compute; repeat split; discriminate|]. apply digit_good in D. cbn in D. repeat (destruct D as [<-|D]; [vm_compute; repeat split; discriminate|]). destruct D. }
  destruct U as (U1 & U2 & U3). rewrite E. cbn [map].
  destruct (list_eq_dec ascii_dec (upper c :: map upper t) (lit "NULL")) as [Q|_]; [cbn in Q; congruence|].
  destruct (list_eq_dec ascii_dec (upper c :: map upper t) (lit "TRUE")) as [Q|_]; [cbn in Q; congruence|].
  destruct (list_eq_dec ascii_dec (upper c :: map upper t) (lit "FALSE")) as [Q|_]; [cbn in Q; congruence|].
  rewrite <- E. destruct (forallb isNumber (showFloat v)) eqn:F; [|reflexivity]. exfalso. rewrite forallb_forall in F. specialize (F _ I). vm_compute in F. discriminate.
Qed.
Print Assumptions C86_text_is_a_number_refuted.
Example C86_text_is_a_number_refuted_ex : showFloat (fl one 100000) = lit "1e-05" /\ fl one 100000 * 1000000 <= 99 * one.
Proof. vm_compute. split; [reflexivity|discriminate]. Qed.
