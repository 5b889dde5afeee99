(** C28 and C29: the audio mixer. *)
From Verif Require Import Base ZMap F32 MixModel MixSpec MixProofs.
Local Open Scope Z_scope.

(** *** C28. Levels. *)

(** Samples of magnitude at most one and a master gain within [0,1] (channel gains are clamped, below):
    after any history of frames, controls and resynchronisations, every output sample has magnitude at
    most one. Floating point rounding included. *)
Theorem mixer_output_within_full_scale : forall r ch es rs m, Forall unitEvent es -> run es (newMixer r ch) = (rs, m) ->
  forall o, In o (outs rs) -> Forall (Forall (fun x => Z.abs x <= one)) (osamples o).
Proof. intros r ch es rs m U E. apply (run_full es _ _ _ (new_full r ch) U E). Qed.

(** Whatever gains are asked for, channel gains stay within [0,1]. *)
Definition gainsOk (m : mixer) : Prop := (forall id g, mfind id (gains m) = Some g -> 0 <= g <= one) /\ msorted (gains m).
Lemma setGain_ok id v m : gainsOk m -> gainsOk (setGain id v m).
Proof.
  intros [F3 F4]. unfold setGain. destruct (mmem id (gains m)); [|split; assumption]. split; cbn [gains]; [|apply msorted_mset, F4].
  intros i g. rewrite mfind_mset. destruct (i =? id); [|apply F3]. intros E. injection E as <-. pose proof one_pos. destruct (Z.ltb_spec one v); [lia|]. destruct (Z.ltb_spec v 0); lia.
Qed.
Lemma step_ok e m : gainsOk m -> gainsOk (snd (step e m)).
Proof.
  intros G. pose proof one_pos as O. pose proof G as [F3 F4]. destruct e as [id f| |id v|id|v|id|id]; cbn [step].
  - assert (MA: forall pos m0, gainsOk m0 -> gainsOk (mixAt id pos f m0)).
    { intros pos m0 [G3 G4]. split; cbn [mixAt gains].
      - intros i g. destruct (mfind id (gains m0)); [apply G3|]. destruct (0 <? fn f); [|apply G3]. rewrite mfind_mset. destruct (i =? id); [intros E; injection E as <-; lia|apply G3].
      - destruct (mfind id (gains m0)); [exact G4|]. destruct (0 <? fn f); [apply msorted_mset|]; exact G4. }
    assert (P: gainsOk (snd (push id f m))).
    { unfold push. match goal with |- gainsOk (snd (if ?b then _ else _)) => destruct b; [exact G|] end. cbv zeta.
      match goal with |- gainsOk (snd (if ?b then _ else _)) => destruct b; [destruct (syncTs m <? 0); exact G|] end.
      match goal with |- gainsOk (snd (if ?b then _ else _)) => destruct b end; cbn [snd]; apply MA; destruct (syncTs m <? 0); exact G. }
    destruct (push id f m). exact P.
  - assert (P: gainsOk (snd (extract m))) by (unfold extract; match goal with |- gainsOk (snd (if ?b then _ else _)) => destruct b end; exact G). destruct (extract m). exact P.
  - apply setGain_ok, G.
  - cbn [snd]. unfold solo. destruct (mmem id (gains m)); [|exact G]. generalize (setGain_ok id one m G). generalize (setGain id one m) as m1. induction (mkeys (gains m)) as [|k l IH]; intros m1 H; [exact H|].
    cbn [fold_left]. apply IH. destruct (k =? id); [exact H|apply setGain_ok, H].
  - exact G.
  - split; cbn [snd gains putGains]; [|apply msorted_mset, F4]. intros i g. rewrite mfind_mset. destruct (i =? id); [intros E; injection E as <-; lia|apply F3].
  - split; cbn [snd gains putGains]; [|apply msorted_mdel, F4]. intros i g. rewrite mfind_mdel by exact F4. destruct (i =? id); [discriminate|apply F3].
Qed.
Theorem channel_gains_within_unit : forall r ch es rs m, run es (newMixer r ch) = (rs, m) -> forall id g, mfind id (gains m) = Some g -> 0 <= g <= one.
Proof.
  intros r ch es. assert (G: gainsOk (newMixer r ch)) by (split; [discriminate|exact I]). revert G. generalize (newMixer r ch) as m0. induction es as [|e es IH]; intros m0 G rs m E; cbn [run] in E.
  - injection E as _ <-. apply G.
  - pose proof (step_ok e m0 G) as S. destruct (step e m0) as [x m1]. destruct (run es m1) as [xs m2] eqn:R. injection E as _ <-. apply (IH m1 S _ _ R).
Qed.

(** A position to which only one frame contributed, below the compression threshold: the sample times
    the gain of its channel times the master gain, nothing else. *)
Theorem single_input_passes_through : forall r o v id f before after c p,
  (forall x, In x (before ++ after) -> p < cpos x \/ cpos x + cn x <= p) ->
  posOf r o (fpts f) <= p < posOf r o (fpts f) + fn f ->
  let sample := fmul (fmul (fsample f c (p - posOf r o (fpts f))) (match vgain v id with Some g => g | None => 0 end)) (vmaster v) in
  Z.abs sample <= th -> mixed (before ++ contribution r o v id f :: after) c p 0 = sample.
Proof.
  intros r o v id f before after c p H P sample L. rewrite mixed_app. rewrite (mixed_none before) by (apply Forall_forall; intros x X; apply H, in_or_app; left; exact X).
  cbn [mixed]. rewrite (mixed_none after) by (apply Forall_forall; intros x X; apply H, in_or_app; right; exact X). cbn [contribution cpos cn cval].
  destruct (Z.leb_spec (posOf r o (fpts f)) p); [|lia]. destruct (Z.ltb_spec p (posOf r o (fpts f) + fn f)); [|lia]. cbn [andb]. fold sample.
  unfold mixValue. cbv zeta. rewrite fadd_0_l by apply fmul_float. destruct (Z.ltb_spec th sample); [lia|]. destruct (Z.ltb_spec sample (- th)); [lia|reflexivity].
Qed.
(** Gains of one change nothing. *)
Theorem unit_gain_is_transparent : forall x, isFloat x -> fmul x one = x.
Proof.
  intros x F. unfold fmul. assert (G: forall m e, 0 <= e -> 0 <= m < 2 ^ 24 -> flp (m * 2 ^ e * one) one = m * 2 ^ e).
  { intros m e E M. rewrite <- (flp_fix m e E M) at 2. unfold flp. cbv zeta. unfold expo. rewrite Z.div_mul by discriminate. rewrite Z.div_1_r.
    set (k := Z.max 0 (Z.log2 (m * 2 ^ e) - 23)). f_equal. unfold rne. rewrite Z.mul_1_l, (Z.mul_comm one). pose proof one_pos. assert (K: 0 < 2 ^ k) by (apply Z.pow_pos_nonneg; lia).
    rewrite Z.div_mul_cancel_r by lia. rewrite Zmult_mod_distr_r. generalize ((m * 2 ^ e) mod 2 ^ k). intros t.
    destruct (Z.ltb_spec (2 * (t * one)) (2 ^ k * one)), (Z.ltb_spec (2 * t) (2 ^ k)); try nia; try reflexivity.
    destruct (Z.ltb_spec (2 ^ k * one) (2 * (t * one))), (Z.ltb_spec (2 ^ k) (2 * t)); try nia; reflexivity. }
  destruct F as (m & e & E & M & ->). pose proof (Z.pow_pos_nonneg 2 e ltac:(lia) E) as P. pose proof one_pos. unfold fl. destruct (Z.ltb_spec (m * 2 ^ e * one) 0) as [H1|H1].
  - replace (- (m * 2 ^ e * one)) with ((- m) * 2 ^ e * one) by ring. assert (m < 0) by nia. rewrite G by lia. ring.
  - apply G; [exact E|]. assert (0 <= m) by nia. lia.
Qed.

(** The master gain is not clamped: with a master gain of 3 a full-scale input leaves the range. *)
Definition tick (k : Z) : Z := k * 20000.                 (* at 50 Hz a sample lasts 20 ms *)
Definition tone (t n x : Z) : frame := mkF (tick t) n (fun _ _ => x).
Theorem master_gain_not_clamped_refuted : exists rs m o x, run [EAdd 1; EMaster (3 * one); EPush 1 (tone 0 3 one); EExtract] (newMixer 50 1) = (rs, m) /\
  In o (outs rs) /\ osamples o = [[x]] /\ one < x.
Proof. eexists _, _, _, _. split; [reflexivity|]. split; [left; reflexivity|]. split; [reflexivity|]. vm_compute. reflexivity. Qed.
(** A muted input is not silent: mixing its zeros compresses a loud position again. *)
Theorem muted_input_changes_output_refuted : forall b, isFloat b -> b = th + (one - th) / 2 -> mixValue b 0 <> b.
Proof. intros b _ ->. vm_compute. discriminate. Qed.
(** Below the threshold it changes nothing. *)
Theorem muted_input_silent_partial : forall b, isFloat b -> Z.abs b <= th -> mixValue b 0 = b.
Proof.
  intros b F L. unfold mixValue. cbv zeta. assert (E: fadd b 0 = b) by (unfold fadd; rewrite Z.add_0_r; apply fl_fix, F). rewrite E. destruct (Z.ltb_spec th b); [lia|]. destruct (Z.ltb_spec b (- th)); [lia|reflexivity].
Qed.
(** 16-bit samples survive the conversion to float and back; a full-scale positive float has no 16-bit value. *)
Theorem s16_round_trip : forall b0 b1, 0 <= b0 < 256 -> 0 <= b1 < 256 -> float_to_s16 (s16_to_float b0 b1) = Some (b0, b1).
Proof.
  intros b0 b1 B0 B1. unfold s16_to_float. cbv zeta. set (s := if 32768 <=? b0 + 256 * b1 then b0 + 256 * b1 - 65536 else b0 + 256 * b1).
  assert (S: -32768 <= s <= 32767) by (unfold s; destruct (Z.leb_spec 32768 (b0 + 256 * b1)); lia).
  assert (E: fl (s * one) 32768 = s * 2 ^ 134).
  { replace (fl (s * one) 32768) with (fl (s * 2 ^ 134) 1).
    - apply fl_fix. exists s, 134. split; [lia|]. split; [|reflexivity]. change (2 ^ 24) with 16777216. lia.
    - assert (G: forall k, flp (k * 2 ^ 134) 1 = flp (k * one) 32768).
      { intros k. unfold flp. cbv zeta. assert (EX: expo (k * one) 32768 = expo (k * 2 ^ 134) 1) by (unfold expo; replace (k * one) with (k * 2 ^ 134 * 32768) by (unfold one; change (2 ^ 149) with (2 ^ 134 * 32768); ring); rewrite Z.div_mul by lia; rewrite Z.div_1_r; reflexivity).
        rewrite EX. set (e := expo (k * 2 ^ 134) 1). f_equal. unfold rne. replace (k * one) with (k * 2 ^ 134 * 32768) by (unfold one; change (2 ^ 149) with (2 ^ 134 * 32768); ring). rewrite Z.mul_1_l, (Z.mul_comm 32768).
        assert (P: 0 < 2 ^ e) by (apply Z.pow_pos_nonneg; unfold e, expo; lia). rewrite Z.div_mul_cancel_r by lia. rewrite Zmult_mod_distr_r. generalize ((k * 2 ^ 134) mod 2 ^ e). intros t.
        destruct (Z.ltb_spec (2 * (t * 32768)) (2 ^ e * 32768)), (Z.ltb_spec (2 * t) (2 ^ e)); try lia; try reflexivity.
        destruct (Z.ltb_spec (2 ^ e * 32768) (2 * (t * 32768))), (Z.ltb_spec (2 ^ e) (2 * t)); try lia; reflexivity. }
      unfold fl. pose proof one_pos. assert (0 < 2 ^ 134) by reflexivity. destruct (Z.ltb_spec (s * 2 ^ 134) 0), (Z.ltb_spec (s * one) 0); [|exfalso; nia|exfalso; nia|apply G].
      rewrite <- !Z.mul_opp_l, G. reflexivity. }
  rewrite E. unfold float_to_s16. cbv zeta. replace (s * 2 ^ 134 * 32768) with (s * one) by (unfold one; change (2 ^ 149) with (2 ^ 134 * 32768); ring). rewrite Z.quot_mul by discriminate.
  destruct (Z.leb_spec (-32768) s); [|lia]. destruct (Z.leb_spec s 32767); [|lia]. cbn [andb]. f_equal.
  unfold s. destruct (Z.leb_spec 32768 (b0 + 256 * b1)); f_equal; Z.to_euclidean_division_equations; lia.
Qed.
Theorem full_scale_has_no_s16_refuted : float_to_s16 one = None.
Proof. reflexivity. Qed.

(** *** C29. Positions. *)

(** As long as the mixer does not resynchronise: output number k covers positions k*n, ..., k*n + n - 1 (n
    the output frame length), each position holds the mix of exactly the frames accepted over the whole
    history for that position, and the frame's time is that of its first position. *)
Theorem mixer_places_samples_partial : forall r ch es rs m o, okRate r -> 0 <= ch -> run es (newMixer r ch) = (rs, m) ->
  originOf (5 * defaultSamples r) es = Some o -> 0 <= o -> Forall (frameOk r o) es -> ~ In (RPush Resynced) rs ->
  outs rs = map (outputOf r ch o (contribs r o vol0 es rs)) (zseq (Z.of_nat (length (outs rs)))).
Proof.
  intros r ch es rs m o R CH E OR O F NR.
  assert (ST: started o (5 * defaultSamples r) es (newMixer r ch)) by (right; split; [reflexivity|split; [reflexivity|split; [reflexivity|right; exact OR]]]).
  destruct (run_inv r ch o R CH O es _ [] 0 vol0 rs m (new_inv r ch o R) (new_vol r ch) ST F E NR) as (k' & _ & _ & _ & K4). rewrite K4 at 1. apply map_ext. intros j. reflexivity.
Qed.
Definition two_inputs : list event := [EAdd 1; EAdd 2; EMaster one; EPush 1 (tone 5 2 (one / 4)); EPush 2 (tone 6 2 (one / 8)); EExtract; EPush 1 (tone 7 2 (one / 2)); EExtract; EPush 2 (tone 5 1 one)].
Example two_inputs_case : okRate 50 /\ originOf (5 * defaultSamples 50) two_inputs = Some (tick 5) /\ Forall (frameOk 50 (tick 5)) two_inputs /\
  fst (run two_inputs (newMixer 50 1)) = [RNone; RNone; RNone; RPush Mixed; RPush Mixed; ROut (Some (mkOut (tick 5) [[one / 4]])); RPush Mixed; ROut (Some (mkOut (tick 6) [[3 * (one / 8)]])); RPush Past].
Proof.
  split; [unfold okRate; lia|]. split; [vm_compute; reflexivity|]. split; [|vm_compute; reflexivity]. unfold two_inputs.
  repeat (apply Forall_cons; [first [exact I|split; [vm_compute; discriminate|split; [vm_compute; reflexivity|split; [vm_compute; discriminate|vm_compute; reflexivity]]]]|]). apply Forall_nil.
Qed.

(** C28 in terms of what is emitted: where only one frame was mixed, below the threshold, the emitted
    sample is that frame's sample times its gains. Missing: histories with a resynchronisation (below). *)
Theorem single_input_emitted_partial : forall r ch es rs m o, okRate r -> 0 <= ch -> run es (newMixer r ch) = (rs, m) ->
  originOf (5 * defaultSamples r) es = Some o -> 0 <= o -> Forall (frameOk r o) es -> ~ In (RPush Resynced) rs ->
  forall before x after, contribs r o vol0 es rs = before ++ x :: after ->
  forall c k j out, nth_error (outs rs) k = Some out -> 0 <= c < ch -> 0 <= j < defaultSamples r ->
  let p := Z.of_nat k * defaultSamples r + j in
  cpos x <= p < cpos x + cn x -> (forall y, In y (before ++ after) -> p < cpos y \/ cpos y + cn y <= p) ->
  isFloat (cval x c (p - cpos x)) -> Z.abs (cval x c (p - cpos x)) <= th ->
  nth_error (nth (Z.to_nat c) (osamples out) []) (Z.to_nat j) = Some (cval x c (p - cpos x)).
Proof.
  intros r ch es rs m o R CH E OR O F NR before x after CS c k j out K C J p P H FL L.
  pose proof (mixer_places_samples_partial r ch es rs m o R CH E OR O F NR) as M. rewrite CS in M.
  assert (KL: (k < length (outs rs))%nat) by (apply nth_error_Some; congruence).
  assert (ZN: forall n i, 0 <= i < n -> nth_error (zseq n) (Z.to_nat i) = Some i).
  { intros n i I. unfold zseq. rewrite nth_error_map. assert (S: nth_error (seq 0 (Z.to_nat n)) (Z.to_nat i) = Some (Z.to_nat i)).
    { rewrite nth_error_nth' with (d := 0%nat) by (rewrite seq_length; lia). rewrite seq_nth by lia. reflexivity. } rewrite S. cbn [option_map]. f_equal. lia. }
  assert (OE: out = outputOf r ch o (before ++ x :: after) (Z.of_nat k)).
  { assert (K2 := K). rewrite M in K2. clear K. rename K2 into K. rewrite nth_error_map in K. pose proof (ZN (Z.of_nat (length (outs rs))) (Z.of_nat k) ltac:(lia)) as Z1. rewrite Nat2Z.id in Z1. rewrite Z1 in K. cbn [option_map] in K. congruence. }
  subst out. unfold outputOf. cbv zeta. cbn [osamples].
  rewrite nth_error_nth with (x := map (fun i => mixed (before ++ x :: after) c (Z.of_nat k * defaultSamples r + i) 0) (zseq (defaultSamples r))).
  - rewrite nth_error_map, (ZN _ _ J). cbn [option_map]. f_equal. fold p. rewrite mixed_app. rewrite (mixed_none before) by (apply Forall_forall; intros y Y; apply H, in_or_app; left; exact Y).
    cbn [mixed]. rewrite (mixed_none after) by (apply Forall_forall; intros y Y; apply H, in_or_app; right; exact Y).
    destruct (Z.leb_spec (cpos x) p); [|lia]. destruct (Z.ltb_spec p (cpos x + cn x)); [|lia]. cbn [andb]. set (sample := cval x c (p - cpos x)) in *.
    unfold mixValue. cbv zeta. rewrite fadd_0_l by exact FL. destruct (Z.ltb_spec th sample); [lia|]. destruct (Z.ltb_spec sample (- th)); [lia|reflexivity].
  - rewrite nth_error_map, (ZN _ _ C). reflexivity.
Qed.

(** Which frames are ignored: those that start before the positions already emitted, and those for which
    the buffer has no room beyond the furthest position mixed so far. *)
Theorem late_frames_ignored_partial : forall r ch es rs m o id f, okRate r -> 0 <= ch -> run es (newMixer r ch) = (rs, m) ->
  originOf (5 * defaultSamples r) es = Some o -> 0 <= o -> Forall (frameOk r o) (es ++ [EPush id f]) -> ~ In (RPush Resynced) rs -> fst (push id f m) <> Resynced ->
  fst (push id f m) = Past <-> fn f <= front m + 5 * defaultSamples r - rear m /\ posOf r o (fpts f) < Z.of_nat (length (outs rs)) * defaultSamples r.
Proof.
  intros r ch es rs m o id f R CH E OR O F NR NP. apply Forall_app in F. destruct F as [F FL]. inversion FL as [|? ? F0 _]; subst.
  assert (ST: started o (5 * defaultSamples r) es (newMixer r ch)) by (right; split; [reflexivity|split; [reflexivity|split; [reflexivity|right; exact OR]]]).
  destruct (run_inv r ch o R CH O es _ [] 0 vol0 rs m (new_inv r ch o R) (new_vol r ch) ST F E NR) as (k' & K1 & K2 & _ & _). cbn [app] in K2.
  (* the origin has been set, and the gains agree with some volume *)
  assert (G: forall es m0 rs m, run es m0 = (rs, m) -> (syncTs m0 = o \/ (syncTs m0 < 0 /\ w32 (maxS m0 - w32 (rear m0 - front m0)) = 5 * defaultSamples r /\ originOf (5 * defaultSamples r) es = Some o)) ->
     (syncTs m0 < 0 -> front m0 = 0 /\ rear m0 = 0 /\ rate m0 = r) -> ~ In (RPush Resynced) rs -> Forall (frameOk r o) es -> msorted (gains m0) -> syncTs m = o /\ msorted (gains m)).
  { clear -R O. induction es as [|e es IH]; intros m0 rs m E S Z0 NR F SG; cbn [run] in E.
    - injection E as _ <-. split; [|exact SG]. destruct S as [S|(_ & _ & S)]; [exact S|discriminate S].
    - inversion F as [|? ? F1 F2]; subst. destruct (step e m0) as [x m1] eqn:SE. destruct (run es m1) as [xs m2] eqn:RE. injection E as <- <-.
      assert (NR1: ~ In (RPush Resynced) xs) by (intros X; apply NR; right; exact X).
      assert (SG1: msorted (gains m1)).
      { pose proof (step_ok e m0) as SO. (* only the order *) clear SO. replace m1 with (snd (step e m0)) by (rewrite SE; reflexivity). clear SE.
        destruct e as [id f| |id v|id|v|id|id]; cbn [step].
        - assert (MA: forall pos m9, msorted (gains m9) -> msorted (gains (mixAt id pos f m9))) by (intros pos m9 G4; cbn [mixAt gains]; destruct (mfind id (gains m9)); [exact G4|]; destruct (0 <? fn f); [apply msorted_mset|]; exact G4).
          assert (P: msorted (gains (snd (push id f m0)))).
          { unfold push. match goal with |- context [snd (if ?b then _ else _)] => destruct b; [exact SG|] end. cbv zeta.
            match goal with |- context [snd (if ?b then _ else _)] => destruct b; [destruct (syncTs m0 <? 0); exact SG|] end.
            match goal with |- context [snd (if ?b then _ else _)] => destruct b end; cbn [snd]; apply MA; destruct (syncTs m0 <? 0); exact SG. }
          destruct (push id f m0). exact P.
        - assert (P: msorted (gains (snd (extract m0)))) by (unfold extract; match goal with |- context [snd (if ?b then _ else _)] => destruct b end; exact SG). destruct (extract m0). exact P.
        - cbn [snd]. unfold setGain. destruct (mmem id (gains m0)); [apply msorted_mset|]; exact SG.
        - cbn [snd]. unfold solo. destruct (mmem id (gains m0)); [|exact SG]. assert (S1: msorted (gains (setGain id one m0))) by (unfold setGain; destruct (mmem id (gains m0)); [apply msorted_mset|]; exact SG).
          revert S1. generalize (setGain id one m0) as m9. induction (mkeys (gains m0)) as [|k l IHl]; intros m9 S1; [exact S1|]. cbn [fold_left]. apply IHl. destruct (k =? id); [exact S1|]. unfold setGain. destruct (mmem k (gains m9)); [apply msorted_mset|]; exact S1.
        - exact SG.
        - apply msorted_mset, SG.
        - apply msorted_mdel, SG. }
      apply (IH m1 xs m2 RE); try assumption; clear IH RE.
      + destruct e as [id f| |id v|id|v|id|id]; cbn [step] in SE.
        * destruct (push id f m0) as [q mq] eqn:PE. injection SE as <- <-. unfold push in PE. destruct S as [S|(S1 & S2 & S3)].
          -- left. rewrite S in PE. destruct (Z.ltb_spec o 0); [lia|]. cbv zeta in PE.
             match goal with H : (if ?b then _ else _) = _ |- _ => destruct b; [injection H as <- <-; exact S|] end.
             match goal with H : (if ?b then _ else _) = _ |- _ => destruct b; [injection H as <- <-; exact S|] end.
             match goal with H : (if ?b then _ else _) = _ |- _ => destruct b; [exfalso; apply NR; left; injection H as <- _; reflexivity|injection H as <- <-; exact S] end.
          -- rewrite S2 in PE. cbn [originOf] in S3. destruct (Z.ltb_spec (5 * defaultSamples r) (fn f)) as [L|L], (Z.leb_spec (fn f) (5 * defaultSamples r)) as [L2|L2]; try lia.
             ++ injection PE as <- <-. right. split; [exact S1|]. split; assumption.
             ++ injection S3 as S3. left. destruct (Z.ltb_spec (syncTs m0) 0); [|lia]. cbv zeta in PE. rewrite S3 in PE.
                match goal with H : (if ?b then _ else _) = _ |- _ => destruct b; [injection H as <- <-; reflexivity|] end.
                match goal with H : (if ?b then _ else _) = _ |- _ => destruct b; [exfalso; apply NR; left; injection H as <- _; reflexivity|injection H as <- <-; reflexivity] end.
        * destruct (extract m0) as [q mq] eqn:EE. injection SE as <- <-. unfold extract in EE. match goal with H : (if ?b then _ else _) = _ |- _ => destruct b eqn:BB end.
          -- injection EE as _ <-. exact S.
          -- destruct S as [S|(S1 & S2 & S3)]; [left; apply (f_equal snd) in EE; cbn [snd] in EE; subst mq; exact S|]. exfalso. destruct (Z0 S1) as (A1 & A2 & A3). unfold thresh, ifs in BB. rewrite A1, A2, A3 in BB. apply Z.ltb_ge in BB. change (w32 (0 - 0)) with 0 in BB. pose proof (rate_n r R). lia.
        * injection SE as <- <-. replace (syncTs (setGain id v m0)) with (syncTs m0) by (unfold setGain; destruct (mmem id (gains m0)); reflexivity). destruct S as [S|(S1 & S2 & S3)]; [left; exact S|right]. split; [exact S1|]. split; [|exact S3]. rewrite <- S2. unfold setGain; destruct (mmem id (gains m0)); reflexivity.
        * injection SE as <- <-. assert (SO: syncTs (solo id m0) = syncTs m0 /\ rear (solo id m0) = rear m0 /\ front (solo id m0) = front m0 /\ maxS (solo id m0) = maxS m0).
          { unfold solo. destruct (mmem id (gains m0)); [|repeat split]. assert (T: forall i x mm, syncTs (setGain i x mm) = syncTs mm /\ rear (setGain i x mm) = rear mm /\ front (setGain i x mm) = front mm /\ maxS (setGain i x mm) = maxS mm) by (intros i x mm; unfold setGain; destruct (mmem i (gains mm)); repeat split).
            destruct (T id one m0) as (<- & <- & <- & <-). generalize (setGain id one m0) as m9. induction (mkeys (gains m0)) as [|k l IHl]; intros m9; [repeat split|]. cbn [fold_left]. destruct (k =? id); [apply IHl|]. destruct (T k 0 m9) as (<- & <- & <- & <-). apply IHl. }
          destruct SO as (-> & -> & -> & ->). destruct S as [S|(S1 & S2 & S3)]; [left; exact S|right; split; [exact S1|split; [exact S2|exact S3]]].
        * injection SE as <- <-. exact S.
        * injection SE as <- <-. exact S.
        * injection SE as <- <-. exact S.
      + intros N1. destruct e as [id f| |id v|id|v|id|id]; cbn [step] in SE.
        * destruct (push id f m0) as [q mq] eqn:PE. injection SE as <- <-. unfold push in PE.
          match goal with H : (if ?b then _ else _) = _ |- _ => destruct b; [injection H as <- <-; apply Z0, N1|] end. exfalso. cbv zeta in PE.
          assert (PT: 0 <= fpts f) by (destruct F1 as [F1 _]; lia).
          match type of PE with (if ?b then _ else _) = _ => destruct b; [injection PE as <- <-; destruct (Z.ltb_spec (syncTs m0) 0); cbn in N1; lia|] end.
          match type of PE with (if ?b then _ else _) = _ => destruct b; injection PE as <- <-; destruct (Z.ltb_spec (syncTs m0) 0); cbn in N1; lia end.
        * destruct (extract m0) as [q mq] eqn:EE. injection SE as <- <-. unfold extract in EE. match goal with H : (if ?b then _ else _) = _ |- _ => destruct b eqn:BB end; [injection EE as _ <-; apply Z0, N1|].
          exfalso. apply (f_equal snd) in EE. cbn [snd] in EE. subst mq. cbn [syncTs] in N1. destruct (Z0 N1) as (A1 & A2 & A3). unfold thresh, ifs in BB. rewrite A1, A2, A3 in BB. apply Z.ltb_ge in BB. change (w32 (0 - 0)) with 0 in BB. pose proof (rate_n r R). lia.
        * injection SE as <- <-. revert N1. unfold setGain. destruct (mmem id (gains m0)); exact Z0.
        * injection SE as <- <-. revert N1. assert (SO: syncTs (solo id m0) = syncTs m0 /\ rear (solo id m0) = rear m0 /\ front (solo id m0) = front m0 /\ rate (solo id m0) = rate m0).
          { unfold solo. destruct (mmem id (gains m0)); [|repeat split]. assert (T: forall i x mm, syncTs (setGain i x mm) = syncTs mm /\ rear (setGain i x mm) = rear mm /\ front (setGain i x mm) = front mm /\ rate (setGain i x mm) = rate mm) by (intros i x mm; unfold setGain; destruct (mmem i (gains mm)); repeat split).
            destruct (T id one m0) as (<- & <- & <- & <-). generalize (setGain id one m0) as m9. induction (mkeys (gains m0)) as [|k l IHl]; intros m9; [repeat split|]. cbn [fold_left]. destruct (k =? id); [apply IHl|]. destruct (T k 0 m9) as (<- & <- & <- & <-). apply IHl. }
          destruct SO as (-> & -> & -> & ->). exact Z0.
        * injection SE as <- <-. exact (Z0 N1).
        * injection SE as <- <-. exact (Z0 N1).
        * injection SE as <- <-. exact (Z0 N1). }
  pose proof (rate_n r R) as N.
  destruct (G es _ _ _ E) as [S SG]; try assumption.
  - right. split; [reflexivity|]. split; [|exact OR]. unfold newMixer, maxS, ifs. cbn [rear front rate]. change (w32 (0 - 0)) with 0. rewrite Z.sub_0_r. apply w32_small. lia.
  - intros _. repeat split.
  - exact I.
  - destruct (push id f m) as [q mq] eqn:PE. cbn [fst] in *.
    assert (V: volOk (mkV (fun i => mfind i (gains m)) (master m)) m) by (split; [reflexivity|split; [reflexivity|exact SG]]).
    destruct (push_inv r ch o id f m _ k' _ q mq R K2 V S O F0 PE NP) as (_ & _ & _ & J4 & _). rewrite J4, (v_front _ _ _ _ _ _ K2). rewrite K1. rewrite Z.add_0_l. reflexivity.
Qed.

(** A resynchronisation does not clear the buffer: the new frame is mixed with what is there, at the first
    positions, for every state. *)
Theorem resync_mixes_old_samples_refuted : forall id f m m', push id f m = (Resynced, m') -> 0 < maxS m -> 0 <= fn f <= maxS m -> forall c j, 0 <= c < chans m -> 0 <= j < fn f ->
  exists v, mbuf m' c j = mixValue (mbuf m c j) v.
Proof.
  intros id f m m' E P N c j C J. unfold push in E.
  match goal with H : (if ?b then _ else _) = _ |- _ => destruct b; [discriminate H|] end. cbv zeta in E.
  set (m1 := if syncTs m <? 0 then withSync (fpts f) m else m) in E.
  match goal with H : (if ?b then _ else _) = _ |- _ => destruct b; [discriminate H|] end.
  match goal with H : (if ?b then _ else _) = _ |- _ => destruct b; [|discriminate H] end. apply (f_equal snd) in E. cbn [snd] in E. subst m'.
  assert (M1: mbuf m1 = mbuf m /\ chans m1 = chans m /\ rate m1 = rate m) by (unfold m1; destruct (syncTs m <? 0); repeat split). destruct M1 as (M1 & M2 & M3).
  cbn [mixAt mbuf resync chans]. rewrite M1, M2. destruct (Z.leb_spec 0 c); [|lia]. destruct (Z.ltb_spec c (chans m)); [|lia]. cbn [andb].
  replace (maxS (resync (fpts f) m1)) with (maxS m) by (unfold maxS, ifs, resync; cbn [rate]; rewrite M3; reflexivity).
  rewrite Z.mod_0_l by lia. rewrite mixLoop_spec by lia. rewrite Z.sub_0_r, Z.mod_small by lia. rewrite Z2Nat.id by lia. destruct (Z.ltb_spec j (fn f)); [|lia]. eexists. reflexivity.
Qed.
Theorem stale_samples_emitted_refuted : let es := [EAdd 1; EMaster one; EPush 1 (tone 0 2 (one / 4)); EPush 1 (tone 1000 3 (one / 8)); EExtract] in
  outs (fst (run es (newMixer 50 1))) = [mkOut (tick 1000) [[3 * (one / 8)]]].
Proof. vm_compute. reflexivity. Qed.
(** A frame from before the origin is not ignored: it moves the origin, and output times go back. *)
Theorem earlier_frame_moves_time_back_refuted : let es := [EAdd 1; EMaster one; EPush 1 (tone 10 3 0); EExtract; EPush 1 (tone 8 3 0); EExtract] in
  map ots (outs (fst (run es (newMixer 50 1)))) = [tick 10; tick 8].
Proof. vm_compute. reflexivity. Qed.
(** An input that is ahead fills the buffer: frames of the others that fit are discarded. *)
Theorem early_input_blocks_others_refuted : let es := [EAdd 1; EAdd 2; EPush 1 (tone 0 5 0); EPush 2 (tone 0 1 0)] in
  last (fst (run es (newMixer 50 1))) RNone = RPush NoSpace.
Proof. vm_compute. reflexivity. Qed.

Print Assumptions mixer_output_within_full_scale.
Print Assumptions channel_gains_within_unit.
Print Assumptions single_input_passes_through.
Print Assumptions unit_gain_is_transparent.
Print Assumptions master_gain_not_clamped_refuted.
Print Assumptions muted_input_changes_output_refuted.
Print Assumptions muted_input_silent_partial.
Print Assumptions s16_round_trip.
Print Assumptions full_scale_has_no_s16_refuted.
Print Assumptions mixer_places_samples_partial.
Print Assumptions single_input_emitted_partial.
Print Assumptions late_frames_ignored_partial.
Print Assumptions resync_mixes_old_samples_refuted.
Print Assumptions stale_samples_emitted_refuted.
Print Assumptions earlier_frame_moves_time_back_refuted.
Print Assumptions early_input_blocks_others_refuted.
