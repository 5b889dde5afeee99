From Verif Require Import Base ZMap F32 VidModel VidSpec.
From Coq Require Import Sorted.
Local Open Scope Z_scope.

Lemma fmul_nonneg x n : 0 <= x -> 0 <= n -> 0 <= fmul x (n * one).
Proof. intros X N. unfold fmul. pose proof one_pos. replace 0 with (fl 0 one) at 1 by reflexivity. apply fl_mono; nia. Qed.
Lemma pix_nonneg x n : 0 <= x -> 0 <= n -> 0 <= pix x n.
Proof. intros X N. unfold pix. apply Z.quot_pos; [apply fmul_nonneg; assumption|reflexivity]. Qed.
Lemma toInt_pix x n v : toInt (fmul x (n * one)) = Some v -> v = pix x n.
Proof. unfold toInt, pix. cbv zeta. destruct (intOk _); [congruence|discriminate]. Qed.
(** Whole numbers below 2^24 are exact. *)
Lemma fmul_int k : 0 <= k < 2 ^ 24 -> fl (one * (k * one)) one = k * one.
Proof.
  intros K. pose proof one_pos as O. rewrite <- (fl_fix (k * one)) at 2; [|exists k, 149; split; [lia|split; [lia|reflexivity]]].
  unfold fl. destruct (Z.ltb_spec (one * (k * one)) 0); [exfalso; nia|]. destruct (Z.ltb_spec (k * one) 0); [exfalso; nia|].
  unfold flp. cbv zeta. assert (EX: expo (one * (k * one)) one = expo (k * one) 1) by (unfold expo; rewrite Z.mul_comm, Z.div_mul by discriminate; rewrite Z.div_1_r; reflexivity).
  rewrite EX. set (e := expo (k * one) 1). f_equal. unfold rne. rewrite Z.mul_1_l. assert (P: 0 < 2 ^ e) by (apply Z.pow_pos_nonneg; unfold e, expo; lia).
  rewrite Z.div_mul_cancel_l by lia. rewrite Zmult_mod_distr_l. generalize ((k * one) mod 2 ^ e). intros t. clear -P O.
  destruct (Z.ltb_spec (2 * (one * t)) (one * 2 ^ e)), (Z.ltb_spec (2 * t) (2 ^ e)); try nia; try reflexivity.
  destruct (Z.ltb_spec (one * 2 ^ e) (2 * (one * t))), (Z.ltb_spec (2 ^ e) (2 * t)); try nia; reflexivity.
Qed.
Lemma pix_le x n : 0 <= x <= one -> 0 <= n < 2 ^ 24 -> 0 <= pix x n <= n.
Proof.
  intros X N. split; [apply pix_nonneg; lia|]. unfold pix. pose proof one_pos as O. assert (M: fmul x (n * one) <= n * one).
  { unfold fmul. rewrite <- (fmul_int n N) at 2. apply fl_mono; [exact O|]. nia. }
  pose proof (fmul_nonneg x n ltac:(lia) ltac:(lia)). rewrite Z.quot_div_nonneg by lia. apply Z.div_le_upper_bound; lia.
Qed.
Lemma pix_ge1 x n : one <= x * n -> 0 <= n -> 1 <= pix x n.
Proof.
  intros X N. pose proof one_pos as O. unfold pix. assert (M: one <= fmul x (n * one)).
  { unfold fmul. pose proof (fmul_int 1 ltac:(lia)) as F. rewrite !Z.mul_1_l in F. rewrite <- F at 1. apply fl_mono; [exact O|]. nia. }
  rewrite Z.quot_div_nonneg by lia. apply Z.div_le_lower_bound; lia.
Qed.

Section D.
Variable scale : Z -> Z -> pixels -> Z -> Z -> pixels.
Variable blend : Z -> Z -> Z -> Z.

Lemma paste_spec c W H fw fh p layout l' : 0 <= cx c -> 0 <= cy c -> 0 <= W -> 0 <= H -> paste scale blend c W H fw fh p layout = Ok l' ->
  forall px py, l' px py = if (0 <=? px) && (px <? W) && (0 <=? py) && (py <? H) then paint scale blend W H px py (layout px py) (mkS 0 c fw fh 0 p) else layout px py.
Proof.
  intros X Y W0 H0 E px py. unfold paste in E.
  destruct (toInt (fmul (cw c) (W * one))) as [sw'|] eqn:E1; [|discriminate]. destruct (toInt (fmul (ch c) (H * one))) as [sh'|] eqn:E2; [|discriminate].
  destruct (toInt (fmul (cx c) (W * one))) as [x|] eqn:E3; [|discriminate]. destruct (toInt (fmul (cy c) (H * one))) as [y|] eqn:E4; [|discriminate].
  apply toInt_pix in E1, E2, E3, E4. cbv zeta in E.
  match type of E with (if ?b then _ else _) = _ => destruct b; [discriminate E|] end.
  destruct (negb (intOk (x + sw'))); [discriminate|]. destruct (negb (intOk (y + sh'))); [discriminate|].
  match type of E with (if ?b then _ else _) = _ => destruct b eqn:B; [discriminate E|] end. injection E as <-.
  pose proof (pix_nonneg (cx c) W X W0) as XN. pose proof (pix_nonneg (cy c) H Y H0) as YN. rewrite <- E3 in XN. rewrite <- E4 in YN.
  unfold draw, paint. cbn [sch VidSpec.sw VidSpec.sh spix]. cbv zeta. rewrite <- E1, <- E2, <- E3, <- E4. rewrite (andb_comm (fh =? sh')).
  set (W' := if W <? x + sw' then W - x else sw') in *. set (H' := if H <? y + sh' then H - y else sh') in *.
  assert (WE: (px <? x + W') = (px <? x + sw') && (px <? W)).
  { unfold W'. destruct (Z.ltb_spec W (x + sw')); destruct (Z.ltb_spec px (x + sw')), (Z.ltb_spec px W); cbn [andb]; try lia; destruct (Z.ltb_spec px (x + (W - x))); lia. }
  assert (HE: (py <? y + H') = (py <? y + sh') && (py <? H)).
  { unfold H'. destruct (Z.ltb_spec H (y + sh')); destruct (Z.ltb_spec py (y + sh')), (Z.ltb_spec py H); cbn [andb]; try lia; destruct (Z.ltb_spec py (y + (H - y))); lia. }
  rewrite WE, HE. destruct (Z.leb_spec x px) as [L1|L1]; cbn [andb]; [|destruct (_ && _ && _ && _); reflexivity].
  destruct (Z.leb_spec y py) as [L2|L2]; rewrite ?andb_false_r; cbn [andb]; [|destruct (_ && _ && _ && _); reflexivity].
  destruct (Z.leb_spec 0 px); [|lia]. destruct (Z.leb_spec 0 py); [|lia]. cbn [andb].
  destruct (px <? x + sw'), (px <? W), (py <? y + sh'), (py <? H); reflexivity.
Qed.

(** The channels drawn by the loops. *)
Definition shownOf (m : vmixer) (lay : Z) (e : Z * input) : list shown :=
  match mfind (fst e) (cfg m), snd e with
  | Some c, Video w h t p => if (clayer c =? lay) && cen c then [mkS (fst e) c w h t p] else []
  | _, _ => []
  end.
Definition drawn (m : vmixer) (lay : Z) (ins : list (Z * input)) : list shown := flat_map (shownOf m lay) ins.
Fixpoint drawnAll (k : nat) (m : vmixer) (lay : Z) (ins : list (Z * input)) : list shown :=
  match k with O => [] | S k' => drawn m lay ins ++ drawnAll k' m (lay + 1) ins end.
Definition onLayer (m : vmixer) (lay : Z) (e : Z * input) : bool := match mfind (fst e) (cfg m) with Some c => clayer c =? lay | None => false end.
Definition inside (W H px py : Z) : bool := (0 <=? px) && (px <? W) && (0 <=? py) && (py <? H).
Definition okPos (m : vmixer) : Prop := 0 <= ow m /\ 0 <= oh m /\ forall id c, mfind id (cfg m) = Some c -> 0 <= cx c /\ 0 <= cy c.
Definition maxTs (t : Z) (s : shown) : Z := Z.max (spts s) t.

Lemma paint_id W H px py old a b c w h t t' p : paint scale blend W H px py old (mkS a c w h t p) = paint scale blend W H px py old (mkS b c w h t' p).
Proof. reflexivity. Qed.
Lemma layerLoop_spec m lay : okPos m -> forall ins n layout ts l' ts' n', layerLoop scale blend m lay ins n layout ts = (Mixed l' ts', n') ->
  (forall px py, l' px py = if inside (ow m) (oh m) px py then fold_left (paint scale blend (ow m) (oh m) px py) (drawn m lay ins) (layout px py) else layout px py) /\
  ts' = fold_left maxTs (drawn m lay ins) ts /\ n' = n - Z.of_nat (length (filter (onLayer m lay) ins)).
Proof.
  intros (W0 & H0 & OK). induction ins as [|[id f] r IH]; intros n layout ts l' ts' n' E; cbn [layerLoop] in E.
  - injection E as <- <- <-. split; [intros px py; destruct (inside _ _ _ _); reflexivity|]. split; [reflexivity|cbn; lia].
  - cbn [drawn flat_map filter]. unfold shownOf, onLayer at 1 3. cbn [fst snd]. destruct (mfind id (cfg m)) as [c|] eqn:M; [|apply (IH _ _ _ _ _ _ E)].
    destruct (clayer c =? lay) eqn:L; cbn [negb andb] in *; [|destruct f; cbn [app]; apply (IH _ _ _ _ _ _ E)].
    assert (SKIP: layerLoop scale blend m lay r (n - 1) layout ts = (Mixed l' ts', n') ->
      (forall px py, l' px py = if inside (ow m) (oh m) px py then fold_left (paint scale blend (ow m) (oh m) px py) (drawn m lay r) (layout px py) else layout px py) /\
      ts' = fold_left maxTs (drawn m lay r) ts /\ n' = n - Z.of_nat (S (length (filter (onLayer m lay) r)))).
    { intros E'. destruct (IH _ _ _ _ _ _ E') as (I1 & I2 & I3). split; [exact I1|]. split; [exact I2|]. lia. }
    destruct f as [|w h t p|]; cbn [app length] in *; [apply SKIP, E| |destruct (cen c); cbn [negb] in E; [discriminate E|apply SKIP, E]].
    destruct (cen c) eqn:C; cbn [negb] in E; [|apply SKIP, E]. destruct (paste scale blend c (ow m) (oh m) w h p layout) as [l1| |] eqn:P; try discriminate E.
    destruct (OK id c M) as [OX OY]. pose proof (paste_spec c _ _ _ _ _ _ _ OX OY W0 H0 P) as PS. destruct (IH _ _ _ _ _ _ E) as (I1 & I2 & I3).
    split; [|split; [exact I2|cbn [length]; lia]]. intros px py. rewrite (I1 px py), (PS px py). fold (inside (ow m) (oh m) px py). cbn [app fold_left]. destruct (inside (ow m) (oh m) px py); reflexivity.
Qed.

Definition counted (m : vmixer) (lay : Z) (e : Z * input) : bool := match mfind (fst e) (cfg m) with Some c => negb ((0 <=? clayer c) && (clayer c <? lay)) | None => true end.
Lemma counted_step m lay ins : 0 <= lay -> (length (filter (counted m lay) ins) = length (filter (counted m (lay + 1)) ins) + length (filter (onLayer m lay) ins))%nat.
Proof.
  intros L. induction ins as [|e r IH]; [reflexivity|]. cbn [filter].
  assert (C: (counted m lay e = true /\ counted m (lay + 1) e = true /\ onLayer m lay e = false) \/ (counted m lay e = true /\ counted m (lay + 1) e = false /\ onLayer m lay e = true) \/ (counted m lay e = false /\ counted m (lay + 1) e = false /\ onLayer m lay e = false)).
  { unfold counted, onLayer. destruct (mfind (fst e) (cfg m)) as [c|]; [|left; repeat split].
    destruct (Z.leb_spec 0 (clayer c)), (Z.ltb_spec (clayer c) lay), (Z.ltb_spec (clayer c) (lay + 1)), (Z.eqb_spec (clayer c) lay); cbn [andb negb]; try (exfalso; lia); tauto. }
  destruct C as [(-> & -> & ->)|[(-> & -> & ->)|(-> & -> & ->)]]; cbn [length]; lia.
Qed.
Lemma drawn_none m ins : forall k lay lay0, lay0 <= lay -> filter (counted m lay0) ins = [] -> drawnAll k m lay ins = [].
Proof.
  induction k as [|k IH]; intros lay lay0 L F; [reflexivity|]. cbn [drawnAll]. rewrite (IH (lay + 1) lay0 ltac:(lia) F), app_nil_r. clear IH. unfold drawn.
  induction ins as [|e r IHr]; [reflexivity|]. cbn [filter flat_map] in *. destruct (counted m lay0 e) eqn:C; [discriminate|]. rewrite (IHr F), app_nil_r.
  unfold counted in C. unfold shownOf. destruct (mfind (fst e) (cfg m)) as [c|]; [|reflexivity]. destruct (snd e); try reflexivity.
  destruct (Z.eqb_spec (clayer c) lay) as [Q|Q]; [|reflexivity]. exfalso. destruct (Z.ltb_spec (clayer c) lay0); [lia|]. rewrite andb_false_r in C. discriminate.
Qed.
Lemma layers_spec m : okPos m -> forall k lay ins n layout ts l' ts', 0 <= lay -> n = Z.of_nat (length (filter (counted m lay) ins)) ->
  layers scale blend k m lay ins n layout ts = Mixed l' ts' ->
  (forall px py, l' px py = if inside (ow m) (oh m) px py then fold_left (paint scale blend (ow m) (oh m) px py) (drawnAll k m lay ins) (layout px py) else layout px py) /\
  ts' = fold_left maxTs (drawnAll k m lay ins) ts.
Proof.
  intros OK. induction k as [|k IH]; intros lay ins n layout ts l' ts' L N E; cbn [layers drawnAll] in *.
  - injection E as <- <-. split; [intros px py; destruct (inside _ _ _ _); reflexivity|reflexivity].
  - destruct (layerLoop scale blend m lay ins n layout ts) as [q n'] eqn:Q. destruct q as [l1 t1| | |]; try discriminate E.
    destruct (layerLoop_spec m lay OK _ _ _ _ _ _ _ Q) as (S1 & S2 & S3).
    assert (NN: n' = Z.of_nat (length (filter (counted m (lay + 1)) ins))) by (rewrite S3, N; pose proof (counted_step m lay ins L); lia).
    destruct (Z.leb_spec n' 0) as [B|B].
    + injection E as <- <-. rewrite (drawn_none m ins k (lay + 1) (lay + 1)); [|lia|destruct (filter (counted m (lay + 1)) ins); [reflexivity|cbn [length] in NN; lia]]. rewrite app_nil_r. split; assumption.
    + destruct (IH (lay + 1) ins n' l1 t1 l' ts' ltac:(lia) NN E) as (I1 & I2). split; [|rewrite I2, S2, fold_left_app; reflexivity].
      intros px py. rewrite (I1 px py), (S1 px py). destruct (inside _ _ px py); [|reflexivity]. rewrite fold_left_app. reflexivity.
Qed.
End D.

(** The list is the one of the specification. *)
Lemma drawn_in m lay ins s : In s (drawn m lay ins) <-> In (sid s, Video (sw s) (sh s) (spts s) (spix s)) ins /\ mfind (sid s) (cfg m) = Some (sch s) /\ cen (sch s) = true /\ clayer (sch s) = lay.
Proof.
  unfold drawn. rewrite in_flat_map. split.
  - intros ([id f] & I & S). unfold shownOf in S. cbn [fst snd] in S. destruct (mfind id (cfg m)) as [c|] eqn:M; [|destruct S]. destruct f as [|w h t p|]; try destruct S.
    destruct (Z.eqb_spec (clayer c) lay); cbn [andb] in S; [|destruct S]. destruct (cen c) eqn:C; [|destruct S]. destruct S as [<-|[]]. cbn. repeat split; assumption.
  - intros (I & M & C & L). eexists. split; [exact I|]. unfold shownOf. cbn [fst snd]. rewrite M, C, L, Z.eqb_refl. left. destruct s; reflexivity.
Qed.
Lemma drawnAll_in m ins s : forall k lay, In s (drawnAll k m lay ins) <-> In (sid s, Video (sw s) (sh s) (spts s) (spix s)) ins /\ mfind (sid s) (cfg m) = Some (sch s) /\ cen (sch s) = true /\ lay <= clayer (sch s) < lay + Z.of_nat k.
Proof.
  induction k as [|k IH]; intros lay; cbn [drawnAll]; [split; [intros []|intros (_ & _ & _ & H); lia]|]. rewrite in_app_iff, drawn_in, IH. split.
  - intros [(A & B & C & D)|(A & B & C & D)]; (split; [exact A|split; [exact B|split; [exact C|lia]]]).
  - intros (A & B & C & D). destruct (Z.eq_dec (clayer (sch s)) lay) as [Q|Q]; [left|right]; (split; [exact A|split; [exact B|split; [exact C|lia]]]).
Qed.
Lemma sorted_app {A} (R : A -> A -> Prop) l1 : forall l2, StronglySorted R l1 -> StronglySorted R l2 -> (forall a b, In a l1 -> In b l2 -> R a b) -> StronglySorted R (l1 ++ l2).
Proof.
  induction l1 as [|a l1 IH]; intros l2 S1 S2 H; [exact S2|]. inversion S1 as [|? ? S F]; subst. cbn [app]. constructor.
  - apply IH; [exact S|exact S2|]. intros x y X Y. apply H; [right; exact X|exact Y].
  - apply Forall_app. split; [exact F|]. apply Forall_forall. intros y Y. apply H; [left; reflexivity|exact Y].
Qed.
Lemma drawn_sorted m lay ins : forall lo, sorted_from lo ins -> StronglySorted below (drawn m lay ins).
Proof.
  induction ins as [|[id f] r IH]; intros lo S; [constructor|]. destruct S as [_ S]. change (drawn m lay ((id, f) :: r)) with (shownOf m lay (id, f) ++ drawn m lay r).
  apply sorted_app; [|apply (IH _ S)|].
  - unfold shownOf. cbn [fst snd]. destruct (mfind id (cfg m)); [|constructor]. destruct f; try constructor. destruct (_ && _); repeat constructor.
  - intros a b A B. apply drawn_in in B. destruct B as (BI & _ & _ & BL). right.
    assert (AA: sid a = id /\ clayer (sch a) = lay).
    { unfold shownOf in A. cbn [fst snd] in A. destruct (mfind id (cfg m)) as [c|]; [|destruct A]. destruct f as [|w h t p|]; try destruct A. destruct (Z.eqb_spec (clayer c) lay); cbn [andb] in A; [|destruct A]. destruct (cen c); [|destruct A]. destruct A as [<-|[]]. split; [reflexivity|assumption]. }
    destruct AA as [-> ->]. split; [congruence|]. apply (sorted_lower _ _ _ _ S BI).
Qed.
Lemma drawnAll_sorted m ins : msorted ins -> forall k lay, StronglySorted below (drawnAll k m lay ins).
Proof.
  intros S. induction k as [|k IH]; intros lay; [constructor|]. cbn [drawnAll]. apply sorted_app; [apply (drawn_sorted m lay ins None S)|apply IH|].
  intros a b A B. apply drawn_in in A. apply drawnAll_in in B. left. lia.
Qed.
Lemma sorted_unique (l1 : list shown) : forall l2, StronglySorted below l1 -> StronglySorted below l2 -> (forall s, In s l1 <-> In s l2) -> l1 = l2.
Proof.
  assert (IRR: forall a, ~ below a a) by (intros a [H|[_ H]]; lia). assert (ASY: forall a b, below a b -> below b a -> False) by (intros a b [H|[H H']] [G|[G G']]; lia).
  induction l1 as [|a l1 IH]; intros l2 S1 S2 H.
  - destruct l2 as [|b l2]; [reflexivity|]. exfalso. apply (H b). left. reflexivity.
  - destruct l2 as [|b l2]; [exfalso; apply (H a); left; reflexivity|]. inversion S1 as [|? ? SS1 F1]; inversion S2 as [|? ? SS2 F2]; subst.
    rewrite Forall_forall in F1, F2.
    assert (E: a = b).
    { destruct (proj1 (H a) (or_introl eq_refl)) as [E|I]; [symmetry; exact E|]. destruct (proj2 (H b) (or_introl eq_refl)) as [E|I']; [exact E|]. exfalso. apply (ASY a b); [apply F1, I'|apply F2, I]. }
    subst b. f_equal. apply IH; [exact SS1|exact SS2|]. intros s. split; intros I.
    + destruct (proj1 (H s) (or_intror I)) as [E|J]; [subst s; exfalso; apply (IRR a), F1, I|exact J].
    + destruct (proj2 (H s) (or_intror I)) as [E|J]; [subst s; exfalso; apply (IRR a), F2, I|exact J].
Qed.

(** Controls keep the configuration sound. *)
Definition okVM (m : vmixer) : Prop := 0 < ow m <= 1920 /\ 0 < oh m <= 1080 /\ msorted (cfg m) /\
  forall id c, mfind id (cfg m) = Some c -> 0 <= cx c /\ 0 <= cy c /\ 0 < cw c /\ 0 < ch c /\ 0 <= cop c <= one /\ (c = chan0 \/ 0 <= clayer c <= maxCh m).
Lemma vmStep_ok e m : okVM m -> okVM (vmStep e m) /\ maxCh (vmStep e m) = maxCh m.
Proof.
  intros (A & B & S & C). destruct e as [id|id|id c|w h f|t]; cbn [vmStep].
  - unfold addChannel. destruct (mmem id (cfg m)); cbn [snd]; (split; [|reflexivity]); [split; [exact A|split; [exact B|split; [exact S|exact C]]]|].
    split; [exact A|split; [exact B|split; [apply msorted_mset, S|]]]. cbn [withCfg cfg maxCh]. intros i x. rewrite mfind_mset. destruct (i =? id); [|apply C]. intros E. injection E as <-. cbn [chan0 cx cy cw ch cop]. pose proof one_pos. repeat split; try lia. left. reflexivity.
  - unfold delChannel. destruct (mmem id (cfg m)); cbn [snd]; (split; [|reflexivity]); [|split; [exact A|split; [exact B|split; [exact S|exact C]]]].
    split; [exact A|split; [exact B|split; [apply msorted_mdel, S|]]]. cbn [withCfg cfg maxCh]. intros i x. rewrite mfind_mdel by exact S. destruct (i =? id); [discriminate|apply C].
  - unfold configChannel. destruct (negb (mmem id (cfg m))); cbn [snd]; [split; [split; [exact A|split; [exact B|split; [exact S|exact C]]]|reflexivity]|].
    destruct (Z.ltb_spec (cx c) 0), (Z.ltb_spec (cy c) 0), (Z.leb_spec (cw c) 0), (Z.leb_spec (ch c) 0), (Z.ltb_spec (cop c) 0), (Z.ltb_spec one (cop c)); cbn [orb snd]; try (split; [split; [exact A|split; [exact B|split; [exact S|exact C]]]|reflexivity]).
    destruct (Z.ltb_spec (clayer c) 0), (Z.ltb_spec (maxCh m) (clayer c)); cbn [orb snd]; try (split; [split; [exact A|split; [exact B|split; [exact S|exact C]]]|reflexivity]).
    split; [|reflexivity]. split; [exact A|split; [exact B|split; [apply msorted_mset, S|]]]. cbn [withCfg cfg maxCh]. intros i x. rewrite mfind_mset. destruct (i =? id); [|apply C]. intros E. injection E as <-. repeat split; lia.
  - unfold configure. destruct (Z.leb_spec w 0), (Z.ltb_spec 1920 w), (Z.leb_spec h 0), (Z.ltb_spec 1080 h); cbn [orb snd]; try (split; [split; [exact A|split; [exact B|split; [exact S|exact C]]]|reflexivity]).
    split; [|reflexivity]. split; [cbn; lia|split; [cbn; lia|split; [exact S|exact C]]].
  - split; [|reflexivity]. split; [exact A|split; [exact B|split; [exact S|exact C]]].
Qed.
Lemma vmRun_ok es : forall m, okVM m -> okVM (vmRun es m) /\ maxCh (vmRun es m) = maxCh m.
Proof.
  induction es as [|e es IH]; intros m K; [split; [exact K|reflexivity]|]. cbn [vmRun fold_left]. destruct (vmStep_ok e m K) as [K1 K2]. rewrite <- K2. apply IH, K1.
Qed.
Lemma newVM_ok n w h ft m : newVM n w h ft = Some m -> okVM m /\ maxCh m = n.
Proof.
  unfold newVM. destruct (Z.leb_spec w 0), (Z.ltb_spec 1920 w), (Z.leb_spec h 0), (Z.ltb_spec 1080 h); cbn [orb]; try discriminate. destruct (ft <? 0); [discriminate|].
  intros E. injection E as <-. split; [|reflexivity]. split; [cbn; lia|split; [cbn; lia|split; [exact I|discriminate]]].
Qed.
Lemma okVM_pos m : okVM m -> okPos m.
Proof. intros (A & B & _ & C). split; [lia|split; [lia|]]. intros id c E. destruct (C id c E) as (? & ? & _). split; assumption. Qed.

(** *** The splitter. *)
Definition okCrop (k : crop) : Prop := (kw k = 0 /\ kh k = 0 /\ kx k = -1 /\ ky k = -1) \/ (0 < kw k /\ 0 < kh k /\ 0 <= kx k /\ 0 <= ky k).
Definition okSp (s : splitter) : Prop := msorted (crops s) /\ forall id k, mfind id (crops s) = Some k -> okCrop k.
(** Same rectangles. *)
Definition sameRects (s s' : splitter) : Prop := forall id, option_map (fun k => (kw k, kh k, kx k, ky k)) (mfind id (crops s')) = option_map (fun k => (kw k, kh k, kx k, ky k)) (mfind id (crops s)).

(** What a frame does to one destination. *)
Definition fits (W H : Z) (k : crop) : bool := (0 <? kw k) && (kx k + kw k <=? W) && (ky k + kh k <=? H).
Definition outOf (W H : Z) (k : crop) : cropOut := if fits W H k then Cropped (kw k) (kh k) (kw k * kh k) else Unused.
Definition bufOf (W H : Z) (p : pixels) (k : crop) (old : pixels) : pixels := if fits W H k then blit (kw k) (kh k) (rectOf (kx k) (ky k) p) old else old.

Lemma split_spec W H p : forall dsts s l s', okSp s -> msorted dsts -> NoDup (map snd dsts) -> split W H p dsts s = Ok (l, s') ->
  okSp s' /\ sameRects s s' /\
  map fst l = map fst dsts /\
  (forall id b, In (id, b) dsts -> exists k, mfind id (crops s) = Some k /\ In (id, outOf W H k) l /\ (forall px py, bufs s' b px py = bufOf W H p k (bufs s b) px py) /\
     (fits W H k = true -> exists k', mfind id (crops s') = Some k' /\ target k' = Some b /\ kw k' = kw k /\ kh k' = kh k)) /\
  (forall b, ~ In b (map snd dsts) -> forall px py, bufs s' b px py = bufs s b px py) /\
  (forall id, ~ In id (map fst dsts) -> mfind id (crops s') = mfind id (crops s)).
Proof.
  induction dsts as [|[id b] r IH]; intros s l s' OK SO ND E; cbn [split] in E.
  - injection E as <- <-. split; [exact OK|]. split; [intros i; reflexivity|]. split; [reflexivity|]. split; [intros i b []|]. split; [reflexivity|reflexivity].
  - destruct (mfind id (crops s)) as [k|] eqn:M; [|discriminate]. destruct OK as [OS OK]. pose proof (OK id k M) as K.
    destruct SO as [_ SO]. cbn [map snd] in ND. inversion ND as [|? ? NI ND']; subst. pose proof (sorted_weaken _ _ SO) as SO'.
    assert (NID: ~ In id (map fst r)). { intros X. apply in_map_iff in X. destruct X as [[i c] [X1 X2]]. cbn in X1. subst i. pose proof (sorted_lower _ _ _ _ SO X2). lia. }
    assert (SKIP: fits W H k = false -> (match split W H p r s with Ok (l, s') => Ok ((id, Unused) :: l, s') | Throws => Throws | Undef => Undef end) = Ok (l, s') ->
      okSp s' /\ sameRects s s' /\ map fst l = map fst ((id, b) :: r) /\
      (forall id0 b0, In (id0, b0) ((id, b) :: r) -> exists k, mfind id0 (crops s) = Some k /\ In (id0, outOf W H k) l /\ (forall px py, bufs s' b0 px py = bufOf W H p k (bufs s b0) px py) /\
        (fits W H k = true -> exists k', mfind id0 (crops s') = Some k' /\ target k' = Some b0 /\ kw k' = kw k /\ kh k' = kh k)) /\
      (forall b0, ~ In b0 (map snd ((id, b) :: r)) -> forall px py, bufs s' b0 px py = bufs s b0 px py) /\
      (forall id0, ~ In id0 (map fst ((id, b) :: r)) -> mfind id0 (crops s') = mfind id0 (crops s))).
    { intros F E'. destruct (split W H p r s) as [[l1 s1]| |] eqn:R; try discriminate E'. assert (E1 := f_equal (fun x => match x with Ok a => fst a | _ => [] end) E'). assert (E2 := f_equal (fun x => match x with Ok a => snd a | _ => s1 end) E'). cbn [fst snd] in E1, E2. subst l s'.
      destruct (IH s l1 s1 (conj OS OK) SO' ND' R) as (I1 & I2 & I3 & I4 & I5 & I6). split; [exact I1|]. split; [exact I2|]. split; [cbn [map fst]; f_equal; exact I3|]. split; [|split].
      - intros i c [X|X].
        + injection X as <- <-. exists k. split; [exact M|]. split; [left; unfold outOf; rewrite F; reflexivity|]. split; [|intros F'; congruence]. intros px py. unfold bufOf. rewrite F. apply I5, NI.
        + destruct (I4 i c X) as (k' & A & B & C & D). exists k'. split; [exact A|]. split; [right; exact B|]. split; [exact C|exact D].
      - intros c C. apply I5. intros X. apply C. right. exact X.
      - intros i C. apply I6. intros X. apply C. right. exact X. }
    cbv zeta in E. set (sm := (0 <=? kx k) || (0 <=? ky k) || (0 <? kw k) || (0 <? kh k)) in E.
    assert (SM: sm = (0 <? kw k)).
    { unfold sm. destruct K as [(A & B & C & D)|(A & B & C & D)]; [rewrite A, B, C, D; reflexivity|]. destruct (Z.leb_spec 0 (kx k)); [|lia]. destruct (Z.ltb_spec 0 (kw k)); [|lia]. rewrite !orb_true_r. reflexivity. }
    rewrite SM in E. clear SM sm. destruct (_ && negb (intOk (kx k + kw k))); [discriminate E|].
    destruct ((0 <? kw k) && (kx k + kw k <=? W)) eqn:F1; cbn [negb] in E; [|apply SKIP; [unfold fits; rewrite F1; reflexivity|exact E]].
    destruct (negb (intOk (ky k + kh k))); [discriminate E|].
    destruct (ky k + kh k <=? H) eqn:F2; cbn [negb] in E; [|apply SKIP; [unfold fits; rewrite F1, F2; reflexivity|exact E]]. clear SKIP.
    assert (F: fits W H k = true) by (unfold fits; rewrite F1, F2; reflexivity).
    match type of E with (if ?c then _ else _) = _ => destruct c; [discriminate E|] end. destruct (negb (intOk (kw k * kh k))); [discriminate E|].
    match type of E with match split W H p r ?x with _ => _ end = _ => set (s1 := x) in E end.
    destruct (split W H p r s1) as [[l1 s2]| |] eqn:R; try discriminate E. assert (E1 := f_equal (fun x => match x with Ok a => fst a | _ => [] end) E). assert (E2 := f_equal (fun x => match x with Ok a => snd a | _ => s1 end) E). cbn [fst snd] in E1, E2. subst l s'.
    assert (OK1: okSp s1).
    { split; [apply msorted_mset, OS|]. cbn [s1 crops]. intros i x. rewrite mfind_mset. destruct (i =? id); [|apply OK]. intros X. injection X as <-. exact K. }
    destruct (IH s1 l1 s2 OK1 SO' ND' R) as (I1 & I2 & I3 & I4 & I5 & I6). split; [exact I1|]. split; [|split; [|split; [|split]]].
    + intros i. rewrite (I2 i). cbn [s1 crops]. rewrite mfind_mset. destruct (Z.eqb_spec i id) as [->|]; [rewrite M; reflexivity|reflexivity].
    + cbn [map fst]. f_equal. exact I3.
    + intros i c [X|X].
      * injection X as <- <-. exists k. split; [exact M|]. split; [left; unfold outOf; rewrite F; reflexivity|]. split.
        -- intros px py. rewrite (I5 b NI). cbn [s1 bufs]. unfold setBuf. rewrite Z.eqb_refl. unfold bufOf. rewrite F. reflexivity.
        -- intros _. rewrite (I6 id NID). cbn [s1 crops]. rewrite mfind_mset, Z.eqb_refl. eexists. split; [reflexivity|]. repeat split.
      * destruct (I4 i c X) as (k' & A & B & C & D). exists k'. assert (IN: i <> id) by (intros ->; apply NID, in_map_iff; exists (id, c); split; [reflexivity|exact X]).
        cbn [s1 crops] in A. rewrite mfind_mset in A. destruct (Z.eqb_spec i id); [contradiction|]. split; [exact A|]. split; [right; exact B|]. split; [|exact D].
        intros px py. rewrite (C px py). cbn [s1 bufs]. unfold bufOf, setBuf. assert (CB: c <> b) by (intros ->; apply NI, in_map_iff; exists (i, b); split; [reflexivity|exact X]). destruct (Z.eqb_spec c b); [contradiction|]. reflexivity.
    + intros c C px py. rewrite (I5 c); [|intros X; apply C; right; exact X]. cbn [s1 bufs]. unfold setBuf. destruct (Z.eqb_spec c b) as [->|]; [exfalso; apply C; left; reflexivity|reflexivity].
    + intros i C. rewrite (I6 i); [|intros X; apply C; right; exact X]. cbn [s1 crops]. rewrite mfind_mset. destruct (Z.eqb_spec i id) as [->|]; [exfalso; apply C; left; reflexivity|reflexivity].
Qed.
Lemma split_ok W H p : forall dsts s l s', okSp s -> split W H p dsts s = Ok (l, s') -> okSp s'.
Proof.
  induction dsts as [|[id b] r IH]; intros s l s' OK E; cbn [split] in E; [injection E as <- <-; exact OK|].
  destruct (mfind id (crops s)) as [k|] eqn:M; [|discriminate]. cbv zeta in E.
  match type of E with (if ?c then _ else _) = _ => destruct c; [discriminate E|] end.
  match type of E with (if ?c then _ else _) = _ => destruct c end; [destruct (split W H p r s) as [[l1 s1]| |] eqn:R; try discriminate E; injection E as <- <-; apply (IH s l1 s1 OK R)|].
  match type of E with (if ?c then _ else _) = _ => destruct c; [discriminate E|] end.
  match type of E with (if ?c then _ else _) = _ => destruct c end; [destruct (split W H p r s) as [[l1 s1]| |] eqn:R; try discriminate E; injection E as <- <-; apply (IH s l1 s1 OK R)|].
  match type of E with (if ?c then _ else _) = _ => destruct c; [discriminate E|] end.
  match type of E with (if ?c then _ else _) = _ => destruct c; [discriminate E|] end.
  match type of E with match split W H p r ?x with _ => _ end = _ => destruct (split W H p r x) as [[l1 s2]| |] eqn:R; try discriminate E end. apply (f_equal (fun x => match x with Ok a => snd a | _ => s end)) in E. cbn [snd] in E. subst s2.
  apply (IH _ _ _) in R; [exact R|]. destruct OK as [OS OK]. split; [apply msorted_mset, OS|]. cbn [crops]. intros i x. rewrite mfind_mset. destruct (i =? id); [|apply OK]. intros X. injection X as <-. apply (OK id k M).
Qed.
Lemma spStep_ok junk e s : okSp s -> okSp (spStep junk e s).
Proof.
  intros OK. pose proof OK as [OS OC]. destruct e as [id|id|id w h x y d|W H p dsts]; cbn [spStep].
  - unfold addCrop. destruct (mmem id (crops s)); cbn [snd]; [exact OK|]. split; [apply msorted_mset, OS|]. cbn [crops]. intros i k. rewrite mfind_mset. destruct (i =? id); [|apply OC]. intros E. injection E as <-. left. repeat split.
  - unfold delCrop. destruct (mmem id (crops s)); cbn [snd]; [|exact OK]. split; [apply msorted_mdel, OS|]. cbn [crops]. intros i k. rewrite mfind_mdel by exact OS. destruct (i =? id); [discriminate|apply OC].
  - unfold configCrop. destruct (mfind id (crops s)) as [k0|]; cbn [snd]; [|exact OK].
    destruct (Z.ltb_spec x 0), (Z.ltb_spec y 0), (Z.leb_spec w 0), (Z.leb_spec h 0), (Z.ltb_spec 360 d), (Z.ltb_spec d (-360)); cbn [orb snd]; try exact OK.
    split; [apply msorted_mset, OS|]. cbn [crops]. intros i k. rewrite mfind_mset. destruct (i =? id); [|apply OC]. intros E. injection E as <-. right. cbn [kw kh kx ky]. lia.
  - destruct (split W H p dsts s) as [[l s']| |] eqn:E; [|exact OK|exact OK]. apply (split_ok _ _ _ _ _ _ _ OK E).
Qed.
Lemma spRun_ok junk es : forall s, okSp s -> okSp (spRun junk es s).
Proof. induction es as [|e es IH]; intros s OK; [exact OK|]. cbn [spRun fold_left]. apply IH, spStep_ok, OK. Qed.
Lemma sp0_ok b : okSp (sp0 b).
Proof. split; [exact I|discriminate]. Qed.
Lemma split_no_throw W H p : forall dsts s, okSp s -> split W H p dsts s <> Throws.
Proof.
  induction dsts as [|[id b] r IH]; intros s OK; cbn [split]; [discriminate|]. destruct (mfind id (crops s)) as [k|] eqn:M; [|discriminate]. cbv zeta. pose proof (proj2 OK id k M) as K.
  pose proof (IH s OK) as IHs. set (sm := (0 <=? kx k) || (0 <=? ky k) || (0 <? kw k) || (0 <? kh k)).
  destruct (sm && negb (intOk (kx k + kw k))); [discriminate|]. assert (SK: (match split W H p r s with Ok (l, s') => Ok ((id, Unused) :: l, s') | Throws => Throws | Undef => Undef end) <> Throws) by (destruct (split W H p r s) as [[l s']| |]; [discriminate|congruence|discriminate]).
  destruct sm eqn:SM; cbn [andb negb]; [|exact SK]. destruct (kx k + kw k <=? W); cbn [negb]; [|exact SK]. destruct (negb (intOk (ky k + kh k))); [discriminate|]. destruct (ky k + kh k <=? H); cbn [negb]; [|exact SK]. clear SK IHs.
  destruct K as [(A & B & C & D)|(A & B & C & D)]; [unfold sm in SM; rewrite A, B, C, D in SM; discriminate SM|].
  destruct (Z.ltb_spec (kx k) 0); [lia|]. destruct (Z.ltb_spec (ky k) 0); [lia|]. destruct (Z.ltb_spec (kw k) 0); [lia|]. destruct (Z.ltb_spec (kh k) 0); [lia|]. cbn [orb].
  destruct (negb (intOk (kw k * kh k))); [discriminate|].
  match goal with |- match split W H p r ?x with _ => _ end <> _ => set (s1 := x); assert (OK1: okSp s1) end.
  { destruct OK as [OS OC]. split; [apply msorted_mset, OS|]. cbn [s1 crops]. intros i x. rewrite mfind_mset. destruct (i =? id); [|apply OC]. intros X. injection X as <-. right. cbn [kw kh kx ky]. lia. }
  pose proof (IH s1 OK1) as I1. destruct (split W H p r s1) as [[l s']| |]; [discriminate|congruence|discriminate].
Qed.
(** No undefined behaviour when every destination has a crop and the sums are in range. *)
Lemma split_defined W H p : forall dsts s, okSp s -> 0 <= W < 32768 -> 0 <= H < 32768 -> (forall id b, In (id, b) dsts -> exists k, mfind id (crops s) = Some k /\ kx k + kw k <= 2147483647 /\ ky k + kh k <= 2147483647) -> split W H p dsts s <> Undef.
Proof.
  induction dsts as [|[id b] r IH]; intros s OK HW HH HD; cbn [split]; [discriminate|]. destruct (HD id b (or_introl eq_refl)) as (k & M & SX & SY). rewrite M. cbv zeta. pose proof (proj2 OK id k M) as K.
  assert (KI: intOk (kx k + kw k) = true /\ intOk (ky k + kh k) = true).
  { unfold intOk. destruct K as [(A & B & C & D)|(A & B & C & D)]; [rewrite A, B, C, D; split; reflexivity|]. destruct (Z.leb_spec (-2147483648) (kx k + kw k)); [|lia]. destruct (Z.leb_spec (kx k + kw k) 2147483647); [|lia]. destruct (Z.leb_spec (-2147483648) (ky k + kh k)); [|lia]. destruct (Z.leb_spec (ky k + kh k) 2147483647); [|lia]. split; reflexivity. }
  destruct KI as [-> ->]. cbn [negb]. rewrite andb_false_r.
  assert (IHs: split W H p r s <> Undef) by (apply IH; [exact OK|exact HW|exact HH|intros i c X; apply (HD i c); right; exact X]).
  assert (SK: (match split W H p r s with Ok (l, s') => Ok ((id, Unused) :: l, s') | Throws => Throws | Undef => Undef end) <> Undef) by (destruct (split W H p r s) as [[l s']| |]; [discriminate|discriminate|congruence]).
  set (sm := (0 <=? kx k) || (0 <=? ky k) || (0 <? kw k) || (0 <? kh k)). destruct sm eqn:SM; cbn [andb negb]; [|exact SK]. destruct (Z.leb_spec (kx k + kw k) W) as [FW|]; cbn [negb]; [|exact SK]. destruct (Z.leb_spec (ky k + kh k) H) as [FH|]; cbn [negb]; [|exact SK]. clear SK IHs.
  match goal with |- (if ?c then _ else _) <> _ => destruct c; [discriminate|] end.
  destruct K as [(A & B & C & D)|(A & B & C & D)]; [unfold sm in SM; rewrite A, B, C, D in SM; discriminate SM|].
  assert (PI: intOk (kw k * kh k) = true).
  { assert (0 <= kw k * kh k <= 32768 * 32768) by (split; [nia|apply Z.mul_le_mono_nonneg; lia]). unfold intOk. destruct (Z.leb_spec (-2147483648) (kw k * kh k)); [|lia]. destruct (Z.leb_spec (kw k * kh k) 2147483647); [reflexivity|lia]. }
  rewrite PI. cbn [negb].
  match goal with |- match split W H p r ?x with _ => _ end <> _ => set (s1 := x); assert (OK1: okSp s1) end.
  { destruct OK as [OS OC]. split; [apply msorted_mset, OS|]. cbn [s1 crops]. intros i x. rewrite mfind_mset. destruct (i =? id); [|apply OC]. intros X. injection X as <-. right. cbn [kw kh kx ky]. lia. }
  assert (I1: split W H p r s1 <> Undef).
  { apply IH; [exact OK1|exact HW|exact HH|]. intros i c X. cbn [s1 crops]. rewrite mfind_mset. destruct (Z.eqb_spec i id) as [->|]; [eexists; split; [reflexivity|]; cbn [kx kw ky kh]; split; assumption|apply (HD i c); right; exact X]. }
  destruct (split W H p r s1) as [[l s']| |]; [discriminate|discriminate|congruence].
Qed.

(** *** Drawing succeeds for channels as documented. *)
Lemma intOk_small v : 0 <= v < 2147483648 -> intOk v = true.
Proof. intros H. unfold intOk. destruct (Z.leb_spec (-2147483648) v); [|lia]. destruct (Z.leb_spec v 2147483647); [reflexivity|lia]. Qed.
Lemma toInt_some x n : 0 <= pix x n < 2147483648 -> toInt (fmul x (n * one)) = Some (pix x n).
Proof. intros H. unfold toInt. cbv zeta. fold (pix x n). rewrite intOk_small by exact H. reflexivity. Qed.
Section T.
Variable scale : Z -> Z -> pixels -> Z -> Z -> pixels.
Variable blend : Z -> Z -> Z -> Z.
Lemma paste_good c W H fw fh p layout : 0 < W <= 1920 -> 0 < H <= 1080 -> goodChan W H c -> 0 < fw -> 0 < fh -> exists l', paste scale blend c W H fw fh p layout = Ok l'.
Proof.
  intros HW HH (GX & GY & GW & GH & SW & SH) FW FH. unfold paste. pose proof one_pos as O.
  assert (W24: 0 <= W < 2 ^ 24) by (change (2 ^ 24) with 16777216; lia). assert (H24: 0 <= H < 2 ^ 24) by (change (2 ^ 24) with 16777216; lia).
  pose proof (pix_le (cx c) W GX W24) as PX. pose proof (pix_le (cy c) H GY H24) as PY. assert (CW: 0 <= cw c <= one) by nia. assert (CH: 0 <= ch c <= one) by nia.
  pose proof (pix_le (cw c) W CW W24) as PW. pose proof (pix_le (ch c) H CH H24) as PH. pose proof (pix_ge1 (cw c) W SW ltac:(lia)) as QW. pose proof (pix_ge1 (ch c) H SH ltac:(lia)) as QH.
  rewrite !toInt_some by lia. cbv zeta. set (w := pix (cw c) W) in *. set (h := pix (ch c) H) in *. set (x := pix (cx c) W) in *. set (y := pix (cy c) H) in *.
  destruct (Z.leb_spec w 0); [lia|]. destruct (Z.leb_spec h 0); [lia|]. destruct (Z.leb_spec fw 0); [lia|]. destruct (Z.leb_spec fh 0); [lia|]. cbn [orb]. rewrite andb_false_r. rewrite !intOk_small by lia. cbn [negb].
  destruct (Z.ltb_spec (if W <? x + w then W - x else w) 0) as [B|B]; [exfalso; destruct (W <? x + w); lia|]. destruct (Z.ltb_spec (if H <? y + h then H - y else h) 0) as [B'|B']; [exfalso; destruct (H <? y + h); lia|]. cbn [orb]. eexists. reflexivity.
Qed.
Lemma layers_good m ins : 0 < ow m <= 1920 -> 0 < oh m <= 1080 ->
  (forall id f c, In (id, f) ins -> mfind id (cfg m) = Some c -> cen c = true -> 0 <= clayer c < maxCh m -> f = NoFrame \/ (exists w h t p, f = Video w h t p /\ 0 < w /\ 0 < h /\ goodChan (ow m) (oh m) c)) ->
  forall k lay n layout ts, 0 <= lay -> lay + Z.of_nat k <= maxCh m -> exists l' ts', layers scale blend k m lay ins n layout ts = Mixed l' ts'.
Proof.
  intros HW HH G.
  assert (LL: forall lay, 0 <= lay < maxCh m -> forall r, (forall e, In e r -> In e ins) -> forall n layout ts, exists l' ts' n', layerLoop scale blend m lay r n layout ts = (Mixed l' ts', n')).
  { intros lay L. induction r as [|[id f] r IH]; intros S n layout ts; cbn [layerLoop]; [eexists _, _, _; reflexivity|].
    assert (S': forall e, In e r -> In e ins) by (intros e I; apply S; right; exact I). destruct (mfind id (cfg m)) as [c|] eqn:M; [|apply IH, S'].
    destruct (Z.eqb_spec (clayer c) lay) as [Q|Q]; cbn [negb]; [|apply IH, S'].
    destruct (cen c) eqn:C; cbn [negb]; [|destruct f; apply IH, S'].
    destruct (G id f c (S _ (or_introl eq_refl)) M C ltac:(lia)) as [->|(w & h & t & p & -> & W0 & H0 & GC)]; [apply IH, S'|].
    destruct (paste_good c (ow m) (oh m) w h p layout HW HH GC W0 H0) as [l1 ->]. apply IH, S'. }
  induction k as [|k IH]; intros lay n layout ts L K; cbn [layers]; [eexists _, _; reflexivity|].
  destruct (LL lay ltac:(lia) ins (fun e I => I) n layout ts) as (l1 & t1 & n1 & ->). destruct (n1 <=? 0); [eexists _, _; reflexivity|]. apply IH; lia.
Qed.
End T.
