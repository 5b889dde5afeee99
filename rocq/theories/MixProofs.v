(** Proofs about the audio mixer. *)
From Verif Require Import Base ZMap F32 MixModel MixSpec.
Local Open Scope Z_scope.

(** *** Full scale. *)
Lemma mixValue_unit b v : Z.abs b <= one -> Z.abs v <= one -> Z.abs (mixValue b v) <= one.
Proof.
  intros B W. unfold mixValue. cbv zeta. assert (X: Z.abs (fadd b v) <= 2 * one) by (apply (fl_abs _ (2 * one)); [reflexivity|vm_compute; reflexivity|lia]).
  assert (C0: 0 <= coef) by (vm_compute; discriminate). assert (O0: 0 <= offs) by (vm_compute; discriminate).
  assert (TH: 0 < th) by reflexivity.
  assert (M: forall x, Z.abs x <= 2 * one -> Z.abs (fmul coef x) <= fmul coef (2 * one)).
  { intros x Hx. apply (fl_abs _ (coef * (2 * one))); [exact one_pos|reflexivity|]. rewrite Z.abs_mul, (Z.abs_eq coef) by exact C0. apply Z.mul_le_mono_nonneg_l; [exact C0|exact Hx]. }
  specialize (M _ X). set (K := fmul coef (2 * one)) in M.
  assert (FK: fl (K + offs) 1 <= one) by (unfold K; vm_compute; discriminate).
  destruct (Z.ltb_spec th (fadd b v)).
  - assert (Y: Z.abs (fadd (fmul coef (fadd b v)) offs) <= fl (K + offs) 1) by (apply (fl_abs _ (K + offs)); [reflexivity|reflexivity|lia]). lia.
  - destruct (Z.ltb_spec (fadd b v) (- th)).
    + assert (Y: Z.abs (fsub (fmul coef (fadd b v)) offs) <= fl (K + offs) 1) by (apply (fl_abs _ (K + offs)); [reflexivity|reflexivity|lia]). lia.
    + assert (T1: th <= one) by (vm_compute; discriminate). lia.
Qed.

Definition full (m : mixer) : Prop := (forall c i, Z.abs (mbuf m c i) <= one) /\ 0 <= master m <= one /\ (forall id g, mfind id (gains m) = Some g -> 0 <= g <= one) /\ msorted (gains m).
Lemma cell_unit b k v : (forall i, Z.abs (b i) <= one) -> Z.abs v <= one -> forall i, Z.abs (cell b k v i) <= one.
Proof. intros B W i. unfold cell. destruct (i =? k); [exact W|apply B]. Qed.
Lemma mixLoop_unit k : forall j idx sz vals b, (forall i, Z.abs (b i) <= one) -> (forall j, Z.abs (vals j) <= one) -> forall i, Z.abs (mixLoop k j idx sz vals b i) <= one.
Proof.
  induction k as [|k IH]; intros j idx sz vals b B W i; [apply B|]. cbn [mixLoop]. apply IH; [|exact W]. apply cell_unit; [exact B|]. apply mixValue_unit; [apply B|apply W].
Qed.
Lemma readLoop_unit k : forall j pos sz b l b', readLoop k j pos sz b = (l, b') -> (forall i, Z.abs (b i) <= one) -> (forall i, Z.abs (b' i) <= one) /\ Forall (fun x => Z.abs x <= one) l.
Proof.
  induction k as [|k IH]; intros j pos sz b l b' E B; cbn [readLoop] in E.
  - injection E as <- <-. split; [exact B|constructor].
  - destruct (readLoop k (j + 1) pos sz (cell b ((pos + j) mod sz) 0)) as [l1 b1] eqn:R. injection E as <- <-.
    destruct (IH _ _ _ _ _ _ R) as [X Y]; [apply cell_unit; [exact B|pose proof one_pos; lia]|]. split; [exact X|constructor; [apply B|exact Y]].
Qed.
Lemma mixAt_full id pos f m : full m -> unitFrame f -> full (mixAt id pos f m).
Proof.
  intros (F1 & F2 & F3 & F4) U. unfold mixAt. cbv zeta. set (g := match mfind id (gains m) with Some g => g | None => 0 end).
  assert (G: 0 <= g <= one) by (unfold g; destruct (mfind id (gains m)) as [x|] eqn:E; [apply (F3 _ _ E)|pose proof one_pos; lia]).
  split; [|split; [exact F2|split]]; cbn [mbuf gains].
  - intros c i. destruct ((0 <=? c) && (c <? chans m)); [|apply F1]. apply mixLoop_unit; [apply F1|]. intros j. apply fmul_unit; [apply fmul_unit; [apply U|lia]|lia].
  - intros id' g'. destruct (mfind id (gains m)) eqn:E; [apply F3|]. destruct (0 <? fn f); [|apply F3]. rewrite mfind_mset. destruct (id' =? id); [intros X; injection X as <-; pose proof one_pos; lia|apply F3].
  - destruct (mfind id (gains m)); [exact F4|]. destruct (0 <? fn f); [apply msorted_mset|]; exact F4.
Qed.
Lemma push_full id f m : full m -> unitFrame f -> full (snd (push id f m)).
Proof.
  intros F U. unfold push. destruct (_ <? fn f); [exact F|]. cbv zeta.
  set (m1 := if syncTs m <? 0 then withSync (fpts f) m else m). assert (F1: full m1) by (unfold m1; destruct (syncTs m <? 0); exact F).
  match goal with |- full (snd (if ?b then _ else _)) => destruct b; [exact F1|] end.
  match goal with |- full (snd (if ?b then _ else _)) => destruct b end; cbn [snd]; apply mixAt_full; assumption.
Qed.
Lemma extract_full m : full m -> full (snd (extract m)) /\ forall o, fst (extract m) = Some o -> Forall (Forall (fun x => Z.abs x <= one)) (osamples o).
Proof.
  intros F. pose proof F as (F1 & F2 & F3 & F4). unfold extract. destruct (_ <? thresh m); [split; [exact F|discriminate]|].
  assert (G: forall c, (forall i, Z.abs (snd (readLoop (Z.to_nat (ifs m)) 0 (front m mod maxS m) (maxS m) (mbuf m c)) i) <= one) /\ Forall (fun x => Z.abs x <= one) (fst (readLoop (Z.to_nat (ifs m)) 0 (front m mod maxS m) (maxS m) (mbuf m c)))).
  { intros c. destruct (readLoop (Z.to_nat (ifs m)) 0 (front m mod maxS m) (maxS m) (mbuf m c)) as [l b'] eqn:R. apply (readLoop_unit _ _ _ _ _ _ _ R), F1. }
  cbn [fst snd]. split.
  - split; [|split; [exact F2|split; [exact F3|exact F4]]]. intros c i. cbn [mbuf]. destruct ((0 <=? c) && (c <? chans m)); [apply G|apply F1].
  - intros o E. injection E as <-. cbn [osamples]. apply Forall_forall. intros l I. apply in_map_iff in I. destruct I as (c & <- & _). apply G.
Qed.
Lemma setGain_full id v m : full m -> full (setGain id v m).
Proof.
  intros (F1 & F2 & F3 & F4). unfold setGain. destruct (mmem id (gains m)); [|split; [|split; [|split]]; assumption]. split; [exact F1|split; [exact F2|split]]; cbn [gains].
  - intros i g. rewrite mfind_mset. destruct (i =? id); [|apply F3]. intros E. injection E as <-. pose proof one_pos. destruct (Z.ltb_spec one v); [lia|]. destruct (Z.ltb_spec v 0); lia.
  - apply msorted_mset, F4.
Qed.
Lemma solo_full id m : full m -> full (solo id m).
Proof.
  intros F. unfold solo. destruct (mmem id (gains m)); [|exact F]. generalize (setGain_full id one m F). generalize (setGain id one m) as m1. induction (mkeys (gains m)) as [|k l IH]; intros m1 H; [exact H|].
  cbn [fold_left]. apply IH. destruct (k =? id); [exact H|apply setGain_full, H].
Qed.
Lemma step_full e m : full m -> unitEvent e -> full (snd (step e m)) /\ forall o, fst (step e m) = ROut (Some o) -> Forall (Forall (fun x => Z.abs x <= one)) (osamples o).
Proof.
  intros F U. destruct e as [id f| |id v|id|v|id|id]; cbn [step].
  - pose proof (push_full id f m F U) as P. destruct (push id f m) as [o m1]. split; [exact P|discriminate].
  - destruct (extract_full m F) as [P Q]. destruct (extract m) as [o m1]. split; [exact P|]. intros x E. cbn [fst] in E. injection E as ->. apply Q. reflexivity.
  - split; [apply setGain_full, F|discriminate].
  - split; [apply solo_full, F|discriminate].
  - split; [|discriminate]. destruct F as (F1 & F2 & F3 & F4). split; [exact F1|split; [exact U|split; assumption]].
  - split; [|discriminate]. destruct F as (F1 & F2 & F3 & F4). split; [exact F1|split; [exact F2|split]]; cbn [snd gains putGains]; [|apply msorted_mset, F4].
    intros i g. rewrite mfind_mset. destruct (i =? id); [intros E; injection E as <-; pose proof one_pos; lia|apply F3].
  - split; [|discriminate]. destruct F as (F1 & F2 & F3 & F4). split; [exact F1|split; [exact F2|split]]; cbn [snd gains putGains]; [|apply msorted_mdel, F4].
    intros i g. rewrite mfind_mdel by exact F4. destruct (i =? id); [discriminate|apply F3].
Qed.
Lemma run_full es : forall m rs m', full m -> Forall unitEvent es -> run es m = (rs, m') -> full m' /\ forall o, In o (outs rs) -> Forall (Forall (fun x => Z.abs x <= one)) (osamples o).
Proof.
  induction es as [|e es IH]; intros m rs m' F U E; cbn [run] in E.
  - injection E as <- <-. split; [exact F|intros o []].
  - inversion U as [|? ? U0 U1]; subst. destruct (step_full e m F U0) as [S1 S2]. destruct (step e m) as [x m1]. destruct (run es m1) as [xs m2] eqn:R. injection E as <- <-. cbn [fst snd] in *.
    destruct (IH _ _ _ S1 U1 R) as [R1 R2]. split; [exact R1|]. intros o I. cbn [outs] in I. destruct x as [q|[q|]|]; try apply R2, I. destruct I as [->|I]; [apply S2; reflexivity|apply R2, I].
Qed.
Lemma new_full r c : full (newMixer r c).
Proof. split; [intros; cbn; pose proof one_pos; lia|split; [vm_compute; split; discriminate|split; [discriminate|exact I]]]. Qed.

(** *** Loops. *)
Lemma mod_shift q idx sz : 0 < sz -> (q - (idx + 1) mod sz) mod sz = (q - idx - 1) mod sz.
Proof. intros S. rewrite Zminus_mod_idemp_r. f_equal. lia. Qed.
Lemma mod_pred x sz : 0 < sz -> x mod sz <> 0 -> (x - 1) mod sz = x mod sz - 1.
Proof.
  intros S N. pose proof (Z.mod_pos_bound x sz S). symmetry. apply (Z.mod_unique_pos _ _ (x / sz)); [lia|]. pose proof (Z.div_mod x sz ltac:(lia)). lia.
Qed.
Lemma mod_zero_pred x sz : 0 < sz -> x mod sz = 0 -> (x - 1) mod sz = sz - 1.
Proof. intros S N. symmetry. apply (Z.mod_unique_pos _ _ (x / sz - 1)); [lia|]. pose proof (Z.div_mod x sz ltac:(lia)). lia. Qed.
Lemma mixLoop_spec sz vals : 0 < sz -> forall k j idx b q, Z.of_nat k <= sz -> 0 <= idx < sz -> 0 <= q < sz ->
  mixLoop k j idx sz vals b q = if (q - idx) mod sz <? Z.of_nat k then mixValue (b q) (vals (j + (q - idx) mod sz)) else b q.
Proof.
  intros S. induction k as [|k IH]; intros j idx b q K I Q.
  - cbn [mixLoop]. pose proof (Z.mod_pos_bound (q - idx) sz S). destruct (Z.ltb_spec ((q - idx) mod sz) (Z.of_nat 0)); [lia|reflexivity].
  - cbn [mixLoop]. rewrite IH; [|lia|apply Z.mod_pos_bound, S|exact Q]. rewrite mod_shift by exact S. unfold cell. destruct (Z.eqb_spec q idx) as [->|N].
    + rewrite Z.sub_diag, Z.mod_0_l by lia. rewrite (mod_zero_pred 0) by (try apply Z.mod_0_l; lia).
      destruct (Z.ltb_spec (sz - 1) (Z.of_nat k)); [lia|]. destruct (Z.ltb_spec 0 (Z.of_nat (Datatypes.S k))); [|lia]. rewrite Z.add_0_r. reflexivity.
    + assert (NZ: (q - idx) mod sz <> 0).
      { intros E. apply Z.mod_divide in E; [|lia]. destruct E as [z E]. assert (z = 0) by nia. lia. }
      rewrite mod_pred by assumption. pose proof (Z.mod_pos_bound (q - idx) sz S).
      destruct (Z.ltb_spec ((q - idx) mod sz - 1) (Z.of_nat k)), (Z.ltb_spec ((q - idx) mod sz) (Z.of_nat (Datatypes.S k))); try (exfalso; lia); [|reflexivity]. f_equal. f_equal. lia.
Qed.
Lemma readLoop_spec sz : 0 < sz -> forall k j pos b, Z.of_nat k <= sz ->
  fst (readLoop k j pos sz b) = map (fun t => b ((pos + j + Z.of_nat t) mod sz)) (seq 0 k) /\
  forall q, 0 <= q < sz -> snd (readLoop k j pos sz b) q = if (q - (pos + j)) mod sz <? Z.of_nat k then 0 else b q.
Proof.
  intros S. induction k as [|k IH]; intros j pos b K; cbn [readLoop].
  - split; [reflexivity|]. intros q Q. pose proof (Z.mod_pos_bound (q - (pos + j)) sz S). destruct (Z.ltb_spec ((q - (pos + j)) mod sz) (Z.of_nat 0)); [lia|reflexivity].
  - destruct (readLoop k (j + 1) pos sz (cell b ((pos + j) mod sz) 0)) as [l b'] eqn:R. cbn [fst snd].
    destruct (IH (j + 1) pos (cell b ((pos + j) mod sz) 0) ltac:(lia)) as [I1 I2]. rewrite R in I1, I2. cbn [fst snd] in I1, I2. split.
    + cbn [seq map]. f_equal; [f_equal; f_equal; lia|]. rewrite I1, <- seq_shift, map_map. apply map_ext_in. intros t T. apply in_seq in T. unfold cell.
      replace (pos + (j + 1) + Z.of_nat t) with (pos + j + Z.of_nat (Datatypes.S t)) by lia.
      destruct (Z.eqb_spec ((pos + j + Z.of_nat (Datatypes.S t)) mod sz) ((pos + j) mod sz)) as [E|_]; [|reflexivity]. exfalso.
      assert (X: (Z.of_nat (Datatypes.S t)) mod sz = 0).
      { replace (Z.of_nat (Datatypes.S t)) with ((pos + j + Z.of_nat (Datatypes.S t)) - (pos + j)) by lia. rewrite Zminus_mod, E, Z.sub_diag. apply Z.mod_0_l. lia. }
      rewrite Z.mod_small in X by lia. lia.
    + intros q Q. rewrite (I2 q Q). unfold cell. replace (q - (pos + (j + 1))) with (q - (pos + j) - 1) by lia. pose proof (Z.mod_pos_bound (q - (pos + j)) sz S).
      destruct (Z.eq_dec ((q - (pos + j)) mod sz) 0) as [E|N].
      * rewrite E, mod_zero_pred by assumption. destruct (Z.ltb_spec (sz - 1) (Z.of_nat k)); [lia|]. destruct (Z.ltb_spec 0 (Z.of_nat (Datatypes.S k))); [|lia].
        replace ((pos + j) mod sz) with q; [rewrite Z.eqb_refl; reflexivity|]. apply (Z.mod_unique_pos (pos + j) sz ((pos + j - q) / sz)); [lia|].
        apply Z.mod_divide in E; [|lia]. destruct E as [z E]. replace (pos + j - q) with (- z * sz) by lia. rewrite Z.div_mul by lia. lia.
      * rewrite mod_pred by assumption. destruct (Z.ltb_spec ((q - (pos + j)) mod sz - 1) (Z.of_nat k)), (Z.ltb_spec ((q - (pos + j)) mod sz) (Z.of_nat (Datatypes.S k))); try (exfalso; lia); [reflexivity|].
        destruct (Z.eqb_spec q ((pos + j) mod sz)) as [->|_]; [|reflexivity]. exfalso. apply N. rewrite Zminus_mod_idemp_l, Z.sub_diag. apply Z.mod_0_l. lia.
Qed.

(** *** Mixed values. *)
Lemma mixed_app cs cs' c p : forall acc, mixed (cs ++ cs') c p acc = mixed cs' c p (mixed cs c p acc).
Proof. induction cs as [|x cs IH]; intros acc; [reflexivity|]. cbn [app mixed]. apply IH. Qed.
Lemma mixed_none cs c p : Forall (fun x => p < cpos x \/ cpos x + cn x <= p) cs -> forall acc, mixed cs c p acc = acc.
Proof.
  induction 1 as [|x cs H _ IH]; intros acc; [reflexivity|]. cbn [mixed]. rewrite IH. destruct (Z.leb_spec (cpos x) p), (Z.ltb_spec p (cpos x + cn x)); cbn [andb]; try reflexivity; lia.
Qed.
Lemma zseq_in n x : In x (zseq n) -> 0 <= x < n.
Proof. intros I. apply in_map_iff in I. destruct I as (k & <- & I). apply in_seq in I. lia. Qed.

(** *** Volume. *)
Definition volOk (v : volume) (m : mixer) : Prop := (forall i, mfind i (gains m) = vgain v i) /\ vmaster v = master m /\ msorted (gains m).
Lemma setGain_vol id x m v : volOk v m -> volOk (match vgain v id with Some _ => mkV (setv id (Some (clamp x)) (vgain v)) (vmaster v) | None => v end) (setGain id x m).
Proof.
  intros (V1 & V2 & V3). unfold setGain, mmem. rewrite V1. destruct (vgain v id); [|split; [|split]; assumption]. split; [|split; [exact V2|apply msorted_mset, V3]].
  intros i. cbn [gains vgain]. rewrite mfind_mset. unfold setv. destruct (i =? id); [|apply V1]. f_equal. unfold clamp. pose proof one_pos. destruct (Z.ltb_spec one x); [lia|]. destruct (Z.ltb_spec x 0); lia.
Qed.
Lemma solo_vol id m v : volOk v m -> volOk (vstep (ESolo id) RNone v) (solo id m).
Proof.
  intros (V1 & V2 & V3). cbn [vstep]. unfold solo, mmem. rewrite V1. destruct (vgain v id) as [g|] eqn:G; [|split; [|split]; assumption].
  pose proof (setGain_vol id one m v (conj V1 (conj V2 V3))) as W0. rewrite G in W0.
  assert (LOOP: forall l m1, msorted (gains m1) -> (forall i, mmem i (gains m1) = mmem i (gains m)) -> let m2 := fold_left (fun m k => if k =? id then m else setGain k 0 m) l m1 in
     msorted (gains m2) /\ master m2 = master m1 /\ forall i, mfind i (gains m2) = if (negb (i =? id)) && existsb (Z.eqb i) l && mmem i (gains m) then Some 0 else mfind i (gains m1)).
  { induction l as [|k l IH]; intros m1 S1 K1; cbn [fold_left].
    - split; [exact S1|]. split; [reflexivity|]. intros i. cbn [existsb]. rewrite andb_false_r. reflexivity.
    - destruct (Z.eqb_spec k id) as [->|NK].
      + destruct (IH m1 S1 K1) as (A & B & C). split; [exact A|]. split; [exact B|]. intros i. rewrite C. cbn [existsb]. destruct (Z.eqb_spec i id); reflexivity.
      + assert (S2: msorted (gains (setGain k 0 m1))) by (unfold setGain; destruct (mmem k (gains m1)); [apply msorted_mset|]; exact S1).
        assert (K2: forall i, mmem i (gains (setGain k 0 m1)) = mmem i (gains m)).
        { intros i. rewrite <- K1. unfold setGain. destruct (mmem k (gains m1)) eqn:MK; [|reflexivity]. cbn [gains]. unfold mmem at 1. rewrite mfind_mset. destruct (Z.eqb_spec i k) as [->|_]; [symmetry; exact MK|reflexivity]. }
        destruct (IH _ S2 K2) as (A & B & C). split; [exact A|]. split; [rewrite B; unfold setGain; destruct (mmem k (gains m1)); reflexivity|].
        intros i. rewrite C. cbn [existsb]. destruct (Z.eqb_spec i id) as [->|NI]; cbn [negb andb].
        * unfold setGain. destruct (mmem k (gains m1)); [|reflexivity]. cbn [gains]. rewrite mfind_mset. destruct (Z.eqb_spec id k); [congruence|reflexivity].
        * destruct (Z.eqb_spec i k) as [->|NIK]; cbn [orb].
          -- unfold setGain. rewrite K1. destruct (mmem k (gains m)) eqn:MK; rewrite ?andb_true_r, ?andb_false_r; [|reflexivity]. cbn [gains]. rewrite mfind_mset, Z.eqb_refl. destruct (existsb (Z.eqb k) l); reflexivity.
          -- unfold setGain. destruct (mmem k (gains m1)); [|reflexivity]. cbn [gains]. rewrite mfind_mset. destruct (Z.eqb_spec i k); [congruence|reflexivity]. }
  destruct W0 as (W1 & W2 & W3).
  assert (K0: forall i, mmem i (gains (setGain id one m)) = mmem i (gains m)).
  { intros i. unfold mmem. rewrite W1, V1. cbn [vgain]. unfold setv. destruct (Z.eqb_spec i id) as [->|_]; [rewrite G; reflexivity|reflexivity]. }
  destruct (LOOP (mkeys (gains m)) (setGain id one m) W3 K0) as (A & B & C). split; [|split; [cbn [vmaster]; rewrite B; exact W2|exact A]].
  intros i. rewrite C, W1. cbn [vgain]. unfold setv. destruct (Z.eqb_spec i id) as [->|NI]; cbn [negb andb]; [reflexivity|].
  unfold mmem. rewrite V1. destruct (vgain v i) as [x|] eqn:GI; [|rewrite andb_false_r; reflexivity].
  replace (existsb (Z.eqb i) (mkeys (gains m))) with true; [reflexivity|]. symmetry. apply existsb_exists. exists i. split; [|apply Z.eqb_refl].
  apply mkeys_in. rewrite V1, GI. discriminate.
Qed.

(** *** The invariant of a history without resynchronisation. *)
Record Inv (r ch o : Z) (m : mixer) (cs : list contrib) (k : Z) : Prop := mkInv {
  v_rate : rate m = r; v_ch : chans m = ch; v_k : 0 <= k;
  v_front : front m = k * defaultSamples r;
  v_rear : front m <= rear m <= front m + 5 * defaultSamples r; v_small : rear m < 4294967296;
  v_cs : Forall (fun x => 0 <= cpos x /\ 0 <= cn x /\ cpos x + cn x <= front m + 5 * defaultSamples r) cs;
  v_buf : forall c p, 0 <= c < ch -> front m <= p < front m + 5 * defaultSamples r -> mbuf m c (p mod (5 * defaultSamples r)) = mixed cs c p 0
}.
Lemma posOf_nonneg r o t : 0 <= r -> o <= t -> 0 <= posOf r o t.
Proof. intros R T. unfold posOf. apply Z.quot_pos; nia. Qed.


Definition okRate (r : Z) : Prop := 50 <= r < 107374.
Lemma rate_n r : okRate r -> 1 <= defaultSamples r <= 2147.
Proof. unfold okRate, defaultSamples. intros R. split; [apply Z.div_le_lower_bound; lia|]. apply Z.lt_succ_r. apply Z.div_lt_upper_bound; lia. Qed.
Lemma w32_small x : 0 <= x < 4294967296 -> w32 x = x.
Proof. apply Z.mod_small. Qed.

Lemma mixAt_inv r ch o id f m cs k v : okRate r -> Inv r ch o m cs k -> volOk v m -> let pos := posOf r o (fpts f) in
  0 <= fn f -> o <= fpts f -> front m <= pos -> pos + fn f <= front m + 5 * defaultSamples r -> Inv r ch o (mixAt id pos f m) (cs ++ [contribution r o v id f]) k.
Proof.
  intros R I (V1 & V2 & V3) pos FN OF P1 P2. pose proof (rate_n r R) as N. destruct I as [I1 I2 I3 I4 I5 I6 I7 I8]. set (n := defaultSamples r) in *.
  assert (MX: maxS m = 5 * n) by (unfold maxS, ifs; rewrite I1; reflexivity).
  assert (RR: front m <= (if rear m <? w32 (pos + fn f) then w32 (pos + fn f) else rear m) <= front m + 5 * n /\ (if rear m <? w32 (pos + fn f) then w32 (pos + fn f) else rear m) < 4294967296).
  { destruct (Z.ltb_spec (rear m) (w32 (pos + fn f))) as [L|L]; [|lia]. pose proof (Z.mod_pos_bound (pos + fn f) 4294967296 eq_refl) as W. fold (w32 (pos + fn f)) in W. split; [|lia]. split; [lia|].
    destruct (Z.lt_ge_cases (pos + fn f) 4294967296) as [S|S]; [rewrite w32_small by lia; lia|]. unfold w32 in *.
    assert ((pos + fn f) mod 4294967296 <= pos + fn f) by (apply Z.mod_le; lia). lia. }
  constructor; cbn [mixAt rate chans front rear mbuf]; fold n; try assumption; try apply RR.
  - apply Forall_app. split; [exact I7|]. constructor; [|constructor]. cbn [contribution cpos cn]. fold pos. split; [apply posOf_nonneg; [unfold okRate in R; lia|exact OF]|lia].
  - intros c p C P. destruct (Z.leb_spec 0 c); [|lia]. destruct (Z.ltb_spec c (chans m)); [|lia]. cbn [andb]. rewrite MX.
    set (q := p mod (5 * n)). assert (Q: 0 <= q < 5 * n) by (apply Z.mod_pos_bound; lia).
    rewrite mixLoop_spec; [|lia|lia|apply Z.mod_pos_bound; lia|exact Q]. rewrite Z2Nat.id by exact FN.
    assert (T: (q - pos mod (5 * n)) mod (5 * n) = (p - pos) mod (5 * n)) by (unfold q; rewrite <- Zminus_mod; reflexivity). rewrite T.
    unfold q. rewrite I8 by assumption. rewrite mixed_app. cbn [mixed contribution cpos cn cval]. fold pos. clearbody pos. clear RR T Q q.
    destruct (Z.leb_spec pos p) as [L|L].
    + assert (SM: (p - pos) mod (5 * n) = p - pos) by (apply Z.mod_small; lia). rewrite SM. destruct (Z.ltb_spec (p - pos) (fn f)), (Z.ltb_spec p (pos + fn f)); try (exfalso; lia); cbn [andb]; [|reflexivity]. rewrite V1, V2. rewrite Z.add_0_l. reflexivity.
    + cbn [andb]. assert (E: (p - pos) mod (5 * n) = p - pos + 5 * n) by (symmetry; apply (Z.mod_unique_pos _ _ (-1)); lia). rewrite E.
      destruct (Z.ltb_spec (p - pos + 5 * n) (fn f)); [lia|reflexivity].
Qed.

(** One frame. *)
Lemma push_inv r ch o id f m cs k v q m' : okRate r -> Inv r ch o m cs k -> volOk v m -> syncTs m = o -> 0 <= o -> frameOk r o (EPush id f) -> push id f m = (q, m') -> q <> Resynced ->
  Inv r ch o m' (match q with Mixed => cs ++ [contribution r o v id f] | _ => cs end) k /\ volOk (vstep (EPush id f) (RPush q) v) m' /\ syncTs m' = o /\
  (q = Past <-> fn f <= front m + 5 * defaultSamples r - rear m /\ posOf r o (fpts f) < front m) /\
  (q = NoSpace <-> front m + 5 * defaultSamples r - rear m < fn f).
Proof.
  intros R I V S O (F1 & F2 & F3) E NR. pose proof (rate_n r R) as N. pose proof I as [I1 I2 I3 I4 I5 I6 I7 I8]. pose proof V as (V1 & V2 & V3).
  assert (FR: 0 <= front m) by (rewrite I4; apply Z.mul_nonneg_nonneg; lia). pose proof (posOf_nonneg r o (fpts f) ltac:(unfold okRate in R; lia) F1) as PN.
  assert (MX: maxS m = 5 * defaultSamples r) by (unfold maxS, ifs; rewrite I1; reflexivity).
  assert (W1: w32 (rear m - front m) = rear m - front m) by (apply w32_small; clear E; lia).
  assert (W2: w32 (5 * defaultSamples r - (rear m - front m)) = 5 * defaultSamples r - (rear m - front m)) by (apply w32_small; clear E; lia).
  unfold push in E. rewrite MX, W1, W2 in E.
  destruct (Z.ltb_spec (5 * defaultSamples r - (rear m - front m)) (fn f)) as [L|L].
  { injection E as <- <-. split; [exact I|]. split; [cbn [vstep]; destruct (vgain v id); exact V|]. split; [exact S|]. split; [split; [discriminate|lia]|split; [lia|reflexivity]]. }
  rewrite S in E. destruct (Z.ltb_spec o 0); [lia|]. cbv zeta in E. rewrite S, I1, MX in E. rewrite (w32_small (posOf r o (fpts f))) in E by lia.
  destruct (Z.ltb_spec (posOf r o (fpts f)) (front m)) as [P|P].
  { injection E as <- <-. split; [exact I|]. split; [cbn [vstep]; destruct (vgain v id); exact V|]. split; [exact S|]. split; [split; [lia|reflexivity]|split; [discriminate|lia]]. }
  destruct (Z.ltb_spec (w32 (front m + 5 * defaultSamples r - fn f)) (posOf r o (fpts f))) as [W|W]; injection E as <- <-; [congruence|].
  split.
  { apply mixAt_inv; try assumption; [lia|]. destruct (Z.lt_ge_cases (front m + 5 * defaultSamples r - fn f) 4294967296) as [X|X]; [rewrite w32_small in W by lia; lia|]. exfalso.
    assert (Y: w32 (front m + 5 * defaultSamples r - fn f) = front m + 5 * defaultSamples r - fn f - 4294967296) by (symmetry; apply (Z.mod_unique_pos _ _ 1); lia). lia. }
  split.
  { cbn [vstep]. split; [|split]; cbn [mixAt gains master].
    - intros i. rewrite V1. destruct (vgain v id) as [g|] eqn:G; [apply V1|]. destruct (0 <? fn f); [|apply V1]. rewrite mfind_mset. cbn [vgain]. unfold setv. destruct (i =? id); [reflexivity|apply V1].
    - destruct (vgain v id); [exact V2|]. destruct (0 <? fn f); exact V2.
    - rewrite V1. destruct (vgain v id); [exact V3|]. destruct (0 <? fn f); [apply msorted_mset|]; exact V3. }
  split; [exact S|]. split; [split; [discriminate|lia]|split; [discriminate|lia]].
Qed.

(** Extraction. *)
Lemma extract_inv r ch o m cs k x m' : okRate r -> 0 <= ch -> Inv r ch o m cs k -> syncTs m = o -> extract m = (x, m') ->
  match x with
  | None => m' = m /\ rear m - front m < 3 * defaultSamples r
  | Some y => y = outputOf r ch o cs k /\ Inv r ch o m' cs (k + 1) /\ syncTs m' = o /\ gains m' = gains m /\ master m' = master m
  end.
Proof.
  intros R CH I S E. pose proof (rate_n r R) as N. pose proof I as [I1 I2 I3 I4 I5 I6 I7 I8]. set (n := defaultSamples r) in *.
  assert (FR: 0 <= front m) by (rewrite I4; apply Z.mul_nonneg_nonneg; lia).
  assert (MX: maxS m = 5 * n) by (unfold maxS, ifs; rewrite I1; reflexivity). assert (IX: ifs m = n) by (unfold ifs; rewrite I1; reflexivity).
  assert (W1: w32 (rear m - front m) = rear m - front m) by (apply w32_small; clear E; lia).
  unfold extract in E. cbv beta zeta in E. rewrite W1 in E. unfold thresh in E. rewrite IX, MX in E.
  destruct (Z.ltb_spec (rear m - front m) (3 * n)) as [L|L]; assert (E1 := f_equal fst E); assert (E2 := f_equal snd E); clear E; cbn [fst snd] in E1, E2; subst x m'; [split; [reflexivity|exact L]|].
  assert (N5: 0 < 5 * n) by lia. assert (N6: Z.of_nat (Z.to_nat n) <= 5 * n) by (clear -N; lia).
  pose proof (fun c => readLoop_spec (5 * n) N5 (Z.to_nat n) 0 (front m mod (5 * n)) (mbuf m c) N6) as RD.
  assert (CELL: forall z, (front m mod (5 * n) + z) mod (5 * n) = (front m + z) mod (5 * n)) by (intros z; rewrite Zplus_mod_idemp_l; reflexivity).
  split.
  { unfold outputOf. cbv zeta. fold n. rewrite I1, S, I2. f_equal; [rewrite I4; reflexivity|]. unfold zseq. rewrite map_map. apply map_ext_in. intros c C. apply in_seq in C.
    cbv beta. rewrite (proj1 (RD (Z.of_nat c))). rewrite map_map. apply map_ext_in. intros t T. apply in_seq in T. rewrite Z.add_0_r, CELL. rewrite I8 by lia. rewrite I4. reflexivity. }
  split; [|repeat split; assumption].
  rewrite (w32_small (front m + n)) by lia. constructor; cbn [rate chans front rear mbuf]; fold n; try assumption; try lia.
  - eapply Forall_impl; [|exact I7]. cbn beta. intros a. lia.
  - intros c p C P. destruct (Z.leb_spec 0 c); [|lia]. destruct (Z.ltb_spec c (chans m)); [|lia]. cbn [andb].
    rewrite (proj2 (RD c)) by (apply Z.mod_pos_bound; lia). rewrite Z.add_0_r. rewrite <- Zminus_mod. rewrite Z2Nat.id by lia.
    destruct (Z.lt_ge_cases p (front m + 5 * n)) as [X|X].
    + rewrite Z.mod_small by lia. destruct (Z.ltb_spec (p - front m) n); [lia|]. apply I8; lia.
    + assert (Y: (p - front m) mod (5 * n) = p - front m - 5 * n) by (symmetry; apply (Z.mod_unique_pos _ _ 1); lia). rewrite Y. destruct (Z.ltb_spec (p - front m - 5 * n) n); [|lia].
      symmetry. apply mixed_none. eapply Forall_impl; [|exact I7]. cbn beta. intros a. lia.
Qed.

(** Controls. *)
Lemma control_inv r ch o e m cs k v : Inv r ch o m cs k -> volOk v m -> match e with EPush _ _ | EExtract => False | _ => True end ->
  Inv r ch o (snd (step e m)) cs k /\ volOk (vstep e RNone v) (snd (step e m)) /\ syncTs (snd (step e m)) = syncTs m /\ fst (step e m) = RNone /\ front (snd (step e m)) = front m /\ rear (snd (step e m)) = rear m.
Proof.
  intros I V C.
  assert (SG: forall id x m0, rate (setGain id x m0) = rate m0 /\ chans (setGain id x m0) = chans m0 /\ front (setGain id x m0) = front m0 /\ rear (setGain id x m0) = rear m0 /\ syncTs (setGain id x m0) = syncTs m0 /\ mbuf (setGain id x m0) = mbuf m0).
  { intros id x m0. unfold setGain. destruct (mmem id (gains m0)); repeat split. }
  assert (SO: forall id m0, rate (solo id m0) = rate m0 /\ chans (solo id m0) = chans m0 /\ front (solo id m0) = front m0 /\ rear (solo id m0) = rear m0 /\ syncTs (solo id m0) = syncTs m0 /\ mbuf (solo id m0) = mbuf m0).
  { intros id m0. unfold solo. destruct (mmem id (gains m0)); [|repeat split]. destruct (SG id one m0) as (A1 & A2 & A3 & A4 & A5 & A6). rewrite <- A1, <- A2, <- A3, <- A4, <- A5, <- A6.
    generalize (setGain id one m0) as m1. induction (mkeys (gains m0)) as [|j l IH]; intros m1; [repeat split|]. cbn [fold_left]. destruct (j =? id); [apply IH|].
    destruct (IH (setGain j 0 m1)) as (B1 & B2 & B3 & B4 & B5 & B6). destruct (SG j 0 m1) as (C1 & C2 & C3 & C4 & C5 & C6). rewrite B1, B2, B3, B4, B5, B6. repeat split; assumption. }
  assert (TR: forall m', rate m' = rate m -> chans m' = chans m -> front m' = front m -> rear m' = rear m -> mbuf m' = mbuf m -> Inv r ch o m' cs k).
  { intros m' A1 A2 A3 A4 A6. destruct I as [I1 I2 I3 I4 I5 I6 I7 I8]. constructor; rewrite ?A1, ?A2, ?A3, ?A4, ?A6; assumption. }
  pose proof V as (V1 & V2 & V3).
  destruct e as [id f| |id x|id|x|id|id]; try destruct C; cbn [step snd fst].
  - destruct (SG id x m) as (A1 & A2 & A3 & A4 & A5 & A6). split; [apply TR; assumption|]. split; [apply setGain_vol, V|]. repeat split; assumption.
  - destruct (SO id m) as (A1 & A2 & A3 & A4 & A5 & A6). split; [apply TR; assumption|]. split; [apply solo_vol, V|]. repeat split; assumption.
  - split; [apply TR; reflexivity|]. split; [|repeat split]. split; [exact V1|split; [reflexivity|exact V3]].
  - split; [apply TR; reflexivity|]. split; [|repeat split]. split; [|split; [exact V2|apply msorted_mset, V3]]. intros i. cbn [gains putGains vgain vstep]. rewrite mfind_mset. unfold setv. destruct (i =? id); [reflexivity|apply V1].
  - split; [apply TR; reflexivity|]. split; [|repeat split]. split; [|split; [exact V2|apply msorted_mdel, V3]]. intros i. cbn [gains putGains vgain vstep]. rewrite mfind_mdel by exact V3. unfold setv. destruct (i =? id); [reflexivity|apply V1].
Qed.

(** The invariant after a whole history; [cs] is all that was mixed. *)
Definition started (o : Z) (sz : Z) (es : list event) (m : mixer) : Prop :=
  syncTs m = o \/ (syncTs m < 0 /\ front m = 0 /\ rear m = 0 /\ (originOf sz es = None \/ originOf sz es = Some o)).
Lemma outputs_stable r ch o cs cs' k j : okRate r -> 0 <= j < k -> Forall (fun x => k * defaultSamples r <= cpos x) cs' -> outputOf r ch o (cs ++ cs') j = outputOf r ch o cs j.
Proof.
  intros R J F. pose proof (rate_n r R). unfold outputOf. cbv zeta. f_equal. apply map_ext. intros c. apply map_ext_in. intros t T. apply zseq_in in T. rewrite mixed_app. apply mixed_none.
  eapply Forall_impl; [|exact F]. cbn beta. intros a A. left. nia.
Qed.
Lemma run_inv r ch o : okRate r -> 0 <= ch -> 0 <= o -> forall es m cs k v rs m', Inv r ch o m cs k -> volOk v m -> started o (5 * defaultSamples r) es m ->
  Forall (frameOk r o) es -> run es m = (rs, m') -> ~ In (RPush Resynced) rs ->
  exists k', k' = k + Z.of_nat (length (outs rs)) /\ Inv r ch o m' (cs ++ contribs r o v es rs) k' /\
  Forall (fun x => k * defaultSamples r <= cpos x) (contribs r o v es rs) /\
  outs rs = map (fun j => outputOf r ch o (cs ++ contribs r o v es rs) (k + j)) (zseq (Z.of_nat (length (outs rs)))).
Proof.
  intros R CH O. induction es as [|e es IH]; intros m cs k v rs m' I V ST FO E NR; cbn [run] in E.
  - injection E as <- <-. exists k. cbn [contribs outs]. rewrite app_nil_r. split; [cbn; lia|]. split; [exact I|]. split; [constructor|reflexivity].
  - inversion FO as [|? ? FO1 FO2]; subst. destruct (step e m) as [x m1] eqn:SE. destruct (run es m1) as [xs m2] eqn:RE. injection E as <- <-.
    assert (NR1: ~ In (RPush Resynced) xs) by (intros X; apply NR; right; exact X). pose proof (rate_n r R) as N.
    assert (CTRL: match e with EPush _ _ | EExtract => False | _ => True end -> exists k', k' = k + Z.of_nat (length (outs (x :: xs))) /\ Inv r ch o m2 (cs ++ contribs r o v (e :: es) (x :: xs)) k' /\
      Forall (fun x => k * defaultSamples r <= cpos x) (contribs r o v (e :: es) (x :: xs)) /\
      outs (x :: xs) = map (fun j => outputOf r ch o (cs ++ contribs r o v (e :: es) (x :: xs)) (k + j)) (zseq (Z.of_nat (length (outs (x :: xs)))))).
    { intros C. destruct (control_inv r ch o e m cs k v I V C) as (I1 & V1 & S1 & X1 & F1 & R1). rewrite SE in I1, V1, S1, X1, F1, R1. cbn [fst snd] in *. subst x.
      assert (ST1: started o (5 * defaultSamples r) es m1).
      { unfold started. rewrite S1, F1, R1. destruct ST as [ST|(A1 & A2 & A3 & A4)]; [left; exact ST|right]. repeat split; try assumption. destruct e; try destruct C; exact A4. }
      destruct (IH m1 cs k _ xs m2 I1 V1 ST1 FO2 RE NR1) as (k' & K1 & K2 & K3 & K4). exists k'. cbn [outs contribs].
      replace (match e with EPush id f => [] | _ => [] end ++ contribs r o (vstep e RNone v) es xs) with (contribs r o (vstep e RNone v) es xs) by (destruct e; try destruct C; reflexivity). split; [exact K1|split; [exact K2|split; [exact K3|exact K4]]]. }
    destruct e as [id f| |id y|id|y|id|id]; try (apply CTRL; exact Logic.I); clear CTRL.
    + (* a frame *)
      cbn [step] in SE. destruct (push id f m) as [q mq] eqn:PE. injection SE as <- <-.
      assert (NRQ: q <> Resynced) by (intros ->; apply NR; left; reflexivity).
      (* reduce to the case where the origin is set *)
      assert (G: exists m0, Inv r ch o m0 cs k /\ volOk v m0 /\ front m0 = front m /\ ((q = NoSpace /\ mq = m /\ started o (5 * defaultSamples r) es m) \/ (syncTs m0 = o /\ push id f m0 = (q, mq)))).
      { destruct ST as [ST|(A1 & A2 & A3 & A4)]; [exists m; split; [exact I|split; [exact V|split; [reflexivity|right; split; assumption]]]|].
        cbn [originOf] in A4. pose proof (v_rate _ _ _ _ _ _ I) as I1. destruct (Z.leb_spec (fn f) (5 * defaultSamples r)) as [L|L].
        - destruct A4 as [A4|A4]; [discriminate|]. injection A4 as A4. exists (withSync o m). split; [destruct I; constructor; assumption|]. split; [exact V|]. split; [reflexivity|]. right. split; [reflexivity|].
          revert PE. unfold push, maxS, ifs. cbn [withSync rate rear front syncTs fn]. destruct (Z.ltb_spec (syncTs m) 0); [|lia]. destruct (Z.ltb_spec o 0); [lia|]. rewrite A4, I1, A2, A3.
          assert (GD: (w32 (5 * defaultSamples r - w32 (0 - 0)) <? fn f) = false) by (rewrite (w32_small (0 - 0)) by lia; rewrite w32_small by (clear -N; lia); apply Z.ltb_ge; clear -L; lia).
          rewrite GD. intros PE. exact PE.
        - exists m. split; [exact I|]. split; [exact V|]. split; [reflexivity|]. left. revert PE. unfold push, maxS, ifs. rewrite I1, A2, A3. rewrite (w32_small (0 - 0)) by lia. rewrite w32_small by lia.
          destruct (Z.ltb_spec (5 * defaultSamples r - (0 - 0)) (fn f)); [|lia]. intros E. injection E as <- <-. split; [reflexivity|]. split; [reflexivity|]. right. repeat split; assumption. }
      destruct G as (m0 & I0 & V0 & F0 & [(-> & -> & ST1)|(S0 & P0)]).
      * destruct (IH m cs k v xs m2 I V ST1 FO2 RE NR1) as (k' & K1 & K2 & K3 & K4). exists k'. cbn [outs contribs app].
        replace (vstep (EPush id f) (RPush NoSpace) v) with v by (cbn [vstep]; destruct (vgain v id); reflexivity). split; [exact K1|split; [exact K2|split; [exact K3|exact K4]]].
      * destruct (push_inv r ch o id f m0 cs k v q mq R I0 V0 S0 O FO1 P0 NRQ) as (J1 & J2 & J3 & J4 & J5).
        destruct (IH mq _ k _ xs m2 J1 J2 (or_introl J3) FO2 RE NR1) as (k' & K1 & K2 & K3 & K4). exists k'. cbn [outs contribs].
        destruct q; try congruence; cbn [app]; try (split; [exact K1|split; [exact K2|split; [exact K3|exact K4]]]). rewrite <- app_assoc in K2, K4. cbn [app] in K2, K4. split; [exact K1|]. split; [exact K2|]. split; [|exact K4].
        constructor; [|exact K3]. cbn [contribution cpos]. rewrite <- (v_front _ _ _ _ _ _ I0). destruct (Z.lt_ge_cases (posOf r o (fpts f)) (front m0)) as [X|X]; [|exact X]. exfalso.
        destruct (Z.lt_ge_cases (front m0 + 5 * defaultSamples r - rear m0) (fn f)) as [Y|Y]; [apply J5 in Y; discriminate|]. assert (Z0: Mixed = Past) by (apply J4; split; assumption). discriminate.
    + (* extraction *)
      cbn [step] in SE. destruct (extract m) as [y my] eqn:EE. injection SE as <- <-.
      destruct ST as [ST|(A1 & A2 & A3 & A4)].
      * pose proof (extract_inv r ch o m cs k y my R CH I ST EE) as X. destruct y as [y|].
        -- destruct X as (X1 & X2 & X3 & X4 & X5). assert (V1: volOk v my) by (destruct V as (W1 & W2 & W3); split; [rewrite X4; exact W1|split; [rewrite X5; exact W2|rewrite X4; exact W3]]).
           destruct (IH my cs (k + 1) v xs m2 X2 V1 (or_introl X3) FO2 RE NR1) as (k' & K1 & K2 & K3 & K4). exists k'. cbn [outs contribs vstep app].
           split; [cbn [length]; lia|]. split; [exact K2|]. split; [eapply Forall_impl; [|exact K3]; cbn beta; intros a A; nia|].
           replace (zseq (Z.of_nat (length (y :: outs xs)))) with (0 :: map (fun j => 1 + j) (zseq (Z.of_nat (length (outs xs))))).
           ++ cbn [map]. f_equal; [rewrite X1, Z.add_0_r; symmetry; apply (outputs_stable r ch o cs _ (k + 1)); [exact R|pose proof (v_k _ _ _ _ _ _ I); lia|exact K3]|].
              rewrite K4 at 1. rewrite map_map. apply map_ext. intros j. f_equal. lia.
           ++ unfold zseq. rewrite !Nat2Z.id. cbn [length seq map]. f_equal. rewrite <- seq_shift, !map_map. apply map_ext. intros a. lia.
        -- destruct X as [-> X]. destruct (IH m cs k v xs m2 I V (or_introl ST) FO2 RE NR1) as (k' & K1 & K2 & K3 & K4). exists k'. cbn [outs contribs vstep app]. split; [exact K1|split; [exact K2|split; [exact K3|exact K4]]].
      * assert (Y: y = None /\ my = m).
        { revert EE. unfold extract, thresh, ifs. rewrite (v_rate _ _ _ _ _ _ I), A2, A3. rewrite (w32_small (0 - 0)) by lia. destruct (Z.ltb_spec (0 - 0) (3 * defaultSamples r)); [|lia]. intros E. injection E as <- <-. split; reflexivity. }
        destruct Y as [-> ->]. destruct (IH m cs k v xs m2 I V) as (k' & K1 & K2 & K3 & K4); try assumption; [right; repeat split; assumption|]. exists k'. cbn [outs contribs vstep app]. split; [exact K1|split; [exact K2|split; [exact K3|exact K4]]].
Qed.
Lemma new_inv r ch o : okRate r -> Inv r ch o (newMixer r ch) [] 0.
Proof.
  intros R. pose proof (rate_n r R). constructor; try reflexivity; cbn [newMixer front rear]; try lia. constructor.
Qed.
Lemma new_vol r ch : volOk vol0 (newMixer r ch).
Proof. split; [reflexivity|split; [reflexivity|exact I]]. Qed.
