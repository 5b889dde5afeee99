(** Proofs about the transmitter model. *)
From Coq Require Import String.
From Verif Require Import Base Bytes IsoProofs TxModel TxSpec.
Local Open Scope list_scope.
Local Open Scope Z_scope.

(** *** Start codes *)
Lemma startOffset_short r : startOffset ([0; 0; 1] ++ r) = 3. Proof. reflexivity. Qed.
Lemma startOffset_long r : startOffset ([0; 0; 0; 1] ++ r) = 4. Proof. reflexivity. Qed.
Lemma startOffset_code c r : startOffset (codeBytes c ++ r) = len (codeBytes c).
Proof. destruct c; reflexivity. Qed.
Definition good (s : bytes) : Prop := last s 0 <> 0 /\ forall a b, s <> a ++ [0; 0; 1] ++ b.
Lemma good_tail x y s : good (x :: y :: s) -> good (y :: s).
Proof. intros [A B]. split; [exact A|]. intros a b E. apply (B (x :: a) b). rewrite E. reflexivity. Qed.
Lemma startOffset_good s r : s <> [] -> good s -> startOffset (s ++ r) = 0.
Proof.
  intros N [A B]. destruct s as [|x [|y [|z [|w s]]]]; [congruence| | | |]; cbn [last] in A; cbn [app].
  - unfold startOffset. destruct r as [|b [|c [|d r]]]; try reflexivity; destruct (Z.eqb_spec x 0); try lia; reflexivity.
  - unfold startOffset. destruct r as [|b [|c r]]; try reflexivity; destruct (Z.eqb_spec y 0); try lia; rewrite ?andb_false_r; reflexivity.
  - unfold startOffset. destruct (Z.eqb_spec x 0); [|destruct r; reflexivity]. destruct (Z.eqb_spec y 0); [|destruct r; reflexivity].
    destruct (Z.eqb_spec z 1); [subst; exfalso; apply (B [] []); reflexivity|]. destruct (Z.eqb_spec z 0); [lia|]. destruct r; reflexivity.
  - unfold startOffset. destruct (Z.eqb_spec x 0); [|reflexivity]. destruct (Z.eqb_spec y 0); [|reflexivity].
    destruct (Z.eqb_spec z 1); [subst; exfalso; apply (B [] (w :: s)); reflexivity|]. destruct (Z.eqb_spec z 0); [|reflexivity].
    destruct (Z.eqb_spec w 1); [subst; exfalso; apply (B [0] s); reflexivity|]. reflexivity.
Qed.
Lemma okUnit_good u : okUnit u -> u <> [] /\ good u.
Proof. intros (A & _ & B & C). split; [exact A|split; assumption]. Qed.

(** *** Reading the configuration data *)
Lemma scan_unit c rest : forall s fuel rem nal h over,
  s <> [] -> good s -> len s <= rem ->
  exists over', scan (length s + fuel) c rem (s ++ rest) nal h over = scan fuel c (rem - len s) rest (nal ++ s) h over'
    /\ (over = true -> over' = true) /\ (rem = len s -> over' = true).
Proof.
  induction s as [|x s IH]; intros fuel rem nal h over N G L; [congruence|].
  rewrite len_cons in L. pose proof (len_nonneg s).
  change (length (x :: s) + fuel)%nat with (S (length s + fuel)). cbn [scan].
  destruct (Z.ltb_spec rem 0); [lia|]. destruct (Z.eqb_spec rem 0); [lia|].
  rewrite (startOffset_good (x :: s) rest N G). cbn [Z.ltb Z.compare app].
  assert (R : startReads ((x :: s) ++ rest) = 4) by (unfold startReads; rewrite (startOffset_good (x :: s) rest N G); reflexivity).
  change (x :: s ++ rest) with ((x :: s) ++ rest). rewrite R.
  destruct s as [|y s].
  - exists (over || (rem <? 4)). cbn [length Nat.add app]. rewrite len_cons. change (len []) with 0. rewrite Z.add_0_r.
    split; [reflexivity|]. split; [intros ->; reflexivity|]. intros ->. rewrite orb_true_r. reflexivity.
  - destruct (IH fuel (rem - 1) (nal ++ [x]) h (over || (rem <? 4)) ltac:(discriminate) (good_tail _ _ _ G) ltac:(lia)) as (o & E & P & Q).
    exists o. split; [|split].
    + rewrite E. rewrite (len_cons x). rewrite <- app_assoc. replace (rem - 1 - len (y :: s)) with (rem - (1 + len (y :: s))) by lia. reflexivity.
    + intros ->. apply P. reflexivity.
    + intros EQ. rewrite len_cons in EQ. apply Q. lia.
Qed.
Lemma scan_units c after : forall us p fuel h over,
  okUnit p -> Forall (fun u => okUnit (snd u)) us ->
  (length p + length (wire us) < fuel)%nat ->
  exists over', scan fuel c (len p + len (wire us)) (p ++ wire us ++ after) [] h over
    = (Parsed (fold_left (fun h u => feedHeaders c u h) (p :: map snd us) h), over') /\ (over' = true).
Proof.
  induction us as [|[k q] us IH]; intros p fuel h over OP OU F.
  - cbn [wire flat_map map app] in *. rewrite Nat.add_0_r in F. change (len []) with 0. rewrite Z.add_0_r.
    destruct (okUnit_good _ OP) as [N G].
    replace fuel with (length p + S (fuel - length p - 1))%nat by lia.
    destruct (scan_unit c after p (S (fuel - length p - 1)) (len p) [] h over N G ltac:(lia)) as (o & E & _ & Q).
    exists o. rewrite E. rewrite Z.sub_diag. cbn [scan Z.ltb Z.compare Z.eqb app fold_left]. split; [|apply Q; reflexivity].
    destruct p; [congruence|reflexivity].
  - inversion OU as [|? ? OQ OU']; subst. cbn [snd] in OQ. destruct (okUnit_good _ OP) as [N G].
    cbn [wire flat_map fst snd] in *. rewrite app_length in F. rewrite len_app.
    change (flat_map (fun u => codeBytes (fst u) ++ snd u) us) with (wire us) in *.
    rewrite app_length in F. rewrite <- !app_assoc.
    assert (LK : (1 <= length (codeBytes k))%nat) by (destruct k; cbn; lia).
    destruct (scan_unit c (codeBytes k ++ q ++ wire us ++ after) p (S (fuel - length p - 1)) (len p + (len (codeBytes k ++ q) + len (wire us))) [] h over N G) as (o & E & _ & _).
    { rewrite len_app. pose proof (len_nonneg (codeBytes k)). pose proof (len_nonneg q). pose proof (len_nonneg (wire us)). lia. }
    replace fuel with (length p + S (fuel - length p - 1))%nat by lia. rewrite E. cbn [app scan].
    rewrite len_app in *. rewrite startOffset_code.
    assert (LK' : 1 <= len (codeBytes k)) by (unfold len; lia).
    pose proof (len_nonneg q). pose proof (len_nonneg (wire us)).
    destruct (Z.ltb_spec (len p + (len (codeBytes k) + len q + len (wire us)) - len p) 0); [lia|].
    destruct (Z.eqb_spec (len p + (len (codeBytes k) + len q + len (wire us)) - len p) 0); [lia|].
    destruct (Z.ltb_spec 0 (len (codeBytes k))); [|lia].
    destruct p as [|p0 p]; [congruence|]. set (P := p0 :: p) in *.
    replace (Z.to_nat (len (codeBytes k))) with (length (codeBytes k)) by (unfold len; lia). rewrite skipn_app_len by reflexivity.
    replace (len P + (len (codeBytes k) + len q + len (wire us)) - len P - len (codeBytes k)) with (len q + len (wire us)) by lia.
    match goal with |- context [scan _ _ _ _ _ _ ?o] => destruct (IH q (fuel - length P - 1)%nat (feedHeaders c P h) o OQ OU' ltac:(lia)) as (o2 & E2 & Q2) end.
    exists o2. rewrite E2. split; [reflexivity|exact Q2].
Qed.
Theorem parse_wire c us after : us <> [] -> Forall (fun u => okUnit (snd u)) us ->
  parseExtradata c (wire us) after = (Parsed (fold_left (fun h u => feedHeaders c u h) (map snd us) noHeaders), true).
Proof.
  intros N OU. destruct us as [|[k q] us]; [congruence|]. inversion OU as [|? ? OQ OU']; subst. cbn [snd] in OQ.
  unfold parseExtradata. cbn [wire flat_map fst snd]. change (flat_map (fun u => codeBytes (fst u) ++ snd u) us) with (wire us).
  rewrite <- !app_assoc. rewrite startOffset_code.
  assert (LK : (1 <= length (codeBytes k))%nat) by (destruct k; cbn; lia).
  destruct (Z.ltb_spec 0 (len (codeBytes k))); [|unfold len in *; lia].
  replace (Z.to_nat (len (codeBytes k))) with (length (codeBytes k)) by (unfold len; lia). rewrite skipn_app_len by reflexivity.
  rewrite !len_app. replace (len (codeBytes k) + (len q + len (wire us)) - len (codeBytes k)) with (len q + len (wire us)) by lia.
  match goal with |- scan ?f _ _ _ _ _ ?o = _ => destruct (scan_units c after us q f noHeaders o OQ OU') as (o2 & E2 & Q2) end.
  { rewrite !app_length. lia. }
  rewrite E2, Q2. reflexivity.
Qed.

(** Only three bytes behind the data matter. *)
Lemma startOffset_agree n a b : length a = n -> length b = n -> (4 <= n)%nat -> firstn 4 a = firstn 4 b -> startOffset a = startOffset b.
Proof.
  intros LA LB N E. destruct a as [|a0 [|a1 [|a2 [|a3 a]]]]; cbn in LA; try lia.
  destruct b as [|b0 [|b1 [|b2 [|b3 b]]]]; cbn in LB; try lia. cbn in E. injection E as -> -> -> ->. reflexivity.
Qed.
Lemma startOffset_agree' x y (a b : bytes) : x <> [] -> firstn 3 a = firstn 3 b -> (3 <= length a)%nat -> (3 <= length b)%nat -> x = y -> startOffset (x ++ a) = startOffset (y ++ b).
Proof.
  intros N E LA LB ->. destruct a as [|a0 [|a1 [|a2 a]]]; cbn in LA; try lia. destruct b as [|b0 [|b1 [|b2 b]]]; cbn in LB; try lia.
  cbn in E. injection E as -> -> ->. destruct y as [|y0 [|y1 [|y2 [|y3 y]]]]; try congruence; reflexivity.
Qed.
Lemma scan_agree c a b : (3 <= length a)%nat -> (3 <= length b)%nat -> firstn 3 a = firstn 3 b ->
  forall fuel x nal h over, scan fuel c (len x) (x ++ a) nal h over = scan fuel c (len x) (x ++ b) nal h over.
Proof.
  intros LA LB E. induction fuel as [|fuel IH]; intros x nal h over; [reflexivity|].
  cbn [scan]. pose proof (len_nonneg x). destruct (Z.ltb_spec (len x) 0); [lia|]. destruct (Z.eqb_spec (len x) 0); [reflexivity|].
  assert (N : x <> []) by (intros ->; unfold len in *; cbn in *; lia).
  assert (EO := startOffset_agree' x x a b N E LA LB eq_refl). unfold startReads. rewrite EO.
  destruct (Z.ltb_spec 0 (startOffset (x ++ b))) as [K|K].
  - destruct nal; [reflexivity|].
    set (k := startOffset (x ++ b)) in *.
    destruct (Z_le_gt_dec k (len x)) as [L|L].
    + rewrite !skipn_app. replace (Z.to_nat k - length x)%nat with 0%nat by (unfold len in *; lia). cbn [skipn].
      assert (LS : len (skipn (Z.to_nat k) x) = len x - k) by (unfold len in *; rewrite skipn_length; lia).
      rewrite <- LS. apply IH.
    + destruct fuel; [reflexivity|]. cbn [scan]. destruct (Z.ltb_spec (len x - k) 0); [reflexivity|lia].
  - destruct x as [|x0 x]; [congruence|]. cbn [app]. rewrite len_cons. replace (1 + len x - 1) with (len x) by lia. apply IH.
Qed.
Theorem parse_agree c ex a b : ex <> [] -> (3 <= length a)%nat -> (3 <= length b)%nat -> firstn 3 a = firstn 3 b ->
  parseExtradata c ex a = parseExtradata c ex b.
Proof.
  intros N LA LB E. unfold parseExtradata. assert (EO := startOffset_agree' ex ex a b N E LA LB eq_refl). unfold startReads. rewrite EO.
  set (k := startOffset (ex ++ b)) in *. destruct (Z.ltb_spec 0 k); [|reflexivity].
  destruct (Z_le_gt_dec k (len ex)) as [L|L].
  - rewrite !skipn_app. replace (Z.to_nat k - length ex)%nat with 0%nat by (unfold len in *; lia). cbn [skipn].
    assert (LS : len (skipn (Z.to_nat k) ex) = len ex - k) by (unfold len in *; rewrite skipn_length; lia).
    rewrite <- LS. apply scan_agree; assumption.
  - cbn [scan]. destruct (Z.ltb_spec (len ex - k) 0); [reflexivity|lia].
Qed.

(** The last unit of each type is kept. *)
Lemma land_31 b : Z.land b 31 = b mod 32.
Proof. change 31 with (Z.ones 5). rewrite Z.land_ones by lia. reflexivity. Qed.
Lemma type_265 b : Z.shiftr (Z.land b 126) 1 = b / 2 mod 64.
Proof.
  rewrite Z.shiftr_land. change (Z.shiftr 126 1) with (Z.ones 6). rewrite Z.land_ones by lia.
  rewrite Z.shiftr_div_pow2 by lia. reflexivity.
Qed.
Definition stored (c : vcodec) (t : option Z) (us : list bytes) : option (bytes * Z) :=
  match last (map Some (filter (hasType c t) us)) None with Some u => Some (u, len u mod 256) | None => None end.
Lemma stored_snoc c t us u : stored c t (us ++ [u]) = if hasType c t u then Some (u, len u mod 256) else stored c t us.
Proof.
  unfold stored. rewrite filter_app, map_app. cbn [filter]. destruct (hasType c t u); cbn [map].
  - rewrite last_last. reflexivity.
  - rewrite app_nil_r. reflexivity.
Qed.
Lemma feed_all c us : fold_left (fun h u => feedHeaders c u h) us noHeaders =
  mkH (stored c (vpsType c) us) (stored c (spsType c) us) (stored c (ppsType c) us).
Proof.
  induction us as [|u us IH] using rev_ind; [reflexivity|].
  rewrite fold_left_app, IH, !stored_snoc. cbn [fold_left]. unfold feedHeaders, hasType, unitType. destruct c; cbn [vpsType spsType ppsType].
  - rewrite land_31. set (t := _ mod 32). destruct (Z.eqb_spec t 7); destruct (Z.eqb_spec t 8); try lia; reflexivity.
  - rewrite type_265. set (t := _ mod 64). destruct (Z.eqb_spec t 33); destruct (Z.eqb_spec t 34); destruct (Z.eqb_spec t 32); try lia; reflexivity.
Qed.

(** *** One frame at a time *)
Definition qinv (q : qsource) : Prop := qframe q = None -> processed q = false.
Definition waiting (q : qsource) : list Z := match qframe q with Some i => if processed q then [] else [i] | None => [] end.
Definition heldDone (q : qsource) : list Z := match qframe q with Some i => if processed q then [i] else [] | None => [] end.
Lemma subseq_refl (A : Type) (l : list A) : subseq l l.
Proof. induction l; [constructor|apply sub_take; assumption]. Qed.
Lemma subseq_nil (A : Type) (l : list A) : subseq [] l.
Proof. induction l; constructor; assumption. Qed.
Lemma deliveredIn_app a b : deliveredIn (a ++ b) = deliveredIn a ++ deliveredIn b.
Proof. apply flat_map_app. Qed.
Lemma takenIn_app a b : takenIn (a ++ b) = takenIn a ++ takenIn b.
Proof. apply flat_map_app. Qed.
Lemma collectedIn_app a b : collectedIn (a ++ b) = collectedIn a ++ collectedIn b.
Proof. apply flat_map_app. Qed.
Lemma subseq_app2 (A : Type) (p a b : list A) : subseq a b -> subseq (p ++ a) (p ++ b).
Proof. intros S. induction p; [exact S|]. cbn. apply sub_take. assumption. Qed.
Lemma subseq_trans (A : Type) (b c : list A) : subseq b c -> forall a, subseq a b -> subseq a c.
Proof.
  induction 1; intros a S1.
  - exact S1.
  - constructor. apply IHsubseq. exact S1.
  - inversion S1; subst; [apply sub_skip|apply sub_take]; apply IHsubseq; assumption.
Qed.

(** A frame is never asked for again while it waits to be collected. *)
Fixpoint patient (k : kind) (os : list qop) (q : qsource) : Prop :=
  match os with
  | [] => True
  | o :: r => (k = Nal -> o = QAsk -> processed q = false) /\ patient k r (snd (qstep k o q))
  end.
Lemma qstep_once k o q : qinv q -> (processed q = true -> k = Nal -> awaiting q = false) -> (k = Nal -> o = QAsk -> processed q = false) ->
  let e := fst (qstep k o q) in let q' := snd (qstep k o q) in
  qinv q' /\ (processed q' = true -> k = Nal -> awaiting q' = false) /\
  forall d t, subseq d (waiting q' ++ t) -> subseq (deliveredIn e ++ d) (waiting q ++ takenIn e ++ t).
Proof.
  intros I W P. destruct q as [f p s a]. unfold qinv in *. cbn [qframe processed awaiting] in *.
  destruct o; destruct f as [i|]; destruct p, s, a, k; cbn -[deliveredIn takenIn] in *; cbn;
    try (specialize (I eq_refl); discriminate); try (specialize (W eq_refl eq_refl); discriminate); try (specialize (P eq_refl eq_refl); discriminate);
    (split; [intros; congruence|]); (split; [intros; congruence|]); intros d t S0; try exact S0; try (apply sub_take; exact S0); try (apply sub_skip; exact S0).
Qed.
Lemma qrun_once k : forall os q, qinv q -> (processed q = true -> k = Nal -> awaiting q = false) -> patient k os q ->
  subseq (deliveredIn (fst (qrun k os q))) (waiting q ++ takenIn (fst (qrun k os q))).
Proof.
  induction os as [|o os IH]; intros q I W P; cbn [qrun]; [apply subseq_nil|].
  destruct P as [P1 P2]. destruct (qstep_once k o q I W P1) as (I' & W' & S0).
  destruct (qstep k o q) as [e q'] eqn:E. cbn [fst snd] in *. specialize (IH q' I' W' P2).
  destruct (qrun k os q') as [es q'']. cbn [fst] in *. rewrite deliveredIn_app, takenIn_app. apply S0. exact IH.
Qed.
Lemma qstep_kept k o q : qinv q -> o <> QStop -> stopped q = false ->
  let e := fst (qstep k o q) in let q' := snd (qstep k o q) in
  qinv q' /\ stopped q' = false /\
  forall c d, subseq c (heldDone q' ++ d) -> subseq (collectedIn e ++ c) (heldDone q ++ deliveredIn e ++ d).
Proof.
  intros I N W. destruct q as [f p s a]. unfold qinv in *. cbn [qframe processed stopped] in *. subst s.
  destruct o; try congruence; destruct f as [i|]; destruct p, a, k; cbn;
    try (specialize (I eq_refl); discriminate);
    (split; [intros; congruence|]); (split; [reflexivity|]); intros c d S0; try exact S0; try (apply sub_take; exact S0); try (apply sub_skip; exact S0).
Qed.
Lemma qrun_kept k : forall os q, qinv q -> ~ In QStop os -> stopped q = false ->
  subseq (collectedIn (fst (qrun k os q))) (heldDone q ++ deliveredIn (fst (qrun k os q))).
Proof.
  induction os as [|o os IH]; intros q I N W; cbn [qrun]; [apply subseq_nil|].
  assert (N1 : o <> QStop) by (intros ->; apply N; left; reflexivity).
  destruct (qstep_kept k o q I N1 W) as (I' & W' & S0).
  destruct (qstep k o q) as [e q'] eqn:E. cbn [fst snd] in *. specialize (IH q' I' ltac:(intros X; apply N; right; exact X) W').
  destruct (qrun k os q') as [es q'']. cbn [fst] in *. rewrite deliveredIn_app, collectedIn_app. apply S0. exact IH.
Qed.

(** *** Delivery *)
Lemma deliverRaw_spec u max : 0 <= max -> deliverRaw u (len u) max = (firstn (Z.to_nat max) u, Z.max 0 (len u - max)).
Proof.
  intros M. unfold deliverRaw. destruct (Z.ltb_spec max (len u)).
  - rewrite Z.max_r by lia. reflexivity.
  - rewrite Z.max_l by lia. rewrite !firstn_all2 by (unfold len in *; lia). reflexivity.
Qed.
Lemma firstn_app_le (A : Type) n (a b : list A) : (n <= length a)%nat -> firstn n (a ++ b) = firstn n a.
Proof. intros H. rewrite firstn_app. replace (n - length a)%nat with 0%nat by lia. cbn. apply app_nil_r. Qed.
Lemma deliver264_at off u (pre junk : bytes) max : startOffset (pre ++ u ++ junk) = len pre -> off = len pre ->
  len u < 4294967296 -> 0 <= max ->
  deliver264 (pre ++ u ++ junk) (len pre + len u) max = (firstn (Z.to_nat max) u, Z.max 0 (len u - max)).
Proof.
  intros O E L M. unfold deliver264. rewrite O. replace (len pre + len u - len pre) with (len u) by lia.
  pose proof (len_nonneg u). unfold w32. rewrite Z.mod_small by lia.
  replace (Z.to_nat (len pre)) with (length pre) by (unfold len; lia). rewrite skipn_app_len by reflexivity.
  destruct (Z.ltb_spec max (len u)).
  - rewrite Z.max_r by lia. rewrite firstn_app_le by (unfold len in *; lia). reflexivity.
  - rewrite Z.max_l by lia. replace (Z.to_nat (len u)) with (length u) by (unfold len; lia).
    rewrite firstn_app_len by reflexivity. rewrite firstn_all2 by (unfold len in *; lia). reflexivity.
Qed.

(** *** Sampling *)
Lemma framed_len a u : len (framed a u) = 4 + len u.
Proof. unfold framed. rewrite len_app. destruct a; [reflexivity|rewrite len_be; reflexivity]. Qed.
Lemma sample_fits a max acc u : max < 4294967296 -> len acc + 4 + len u <= max ->
  sampleUnit a max acc u = if match u with b :: _ => b mod 32 =? 9 | [] => false end then Picture acc 0 else More (acc ++ framed a u).
Proof.
  intros M F. unfold sampleUnit. pose proof (len_nonneg acc). pose proof (len_nonneg u). unfold w32. rewrite Z.mod_small by lia.
  rewrite deliverRaw_spec by lia. rewrite firstn_all2 by (unfold len in *; lia). rewrite Z.max_l by lia.
  destruct (Z.ltb_spec max (len acc + 4 + len u)); [lia|]. cbn [Z.ltb Z.compare]. rewrite orb_false_r.
  destruct u as [|b u]; [reflexivity|]. rewrite land_31. reflexivity.
Qed.
Lemma delim_test u : match u with b :: _ => b mod 32 =? 9 | [] => false end = true <-> isDelimiter u.
Proof.
  unfold isDelimiter. destruct u as [|b u]; cbn [nth]; [split; [discriminate|intros [A _]; congruence]|].
  rewrite Z.eqb_eq. split; [intros A; split; [discriminate|exact A]|intros [_ A]; exact A].
Qed.
Lemma picture_app a g h : picture a (g ++ h) = picture a g ++ picture a h.
Proof. apply flat_map_app. Qed.
Lemma sample_group a max : max < 4294967296 -> forall g acc r, Forall (fun u => ~ isDelimiter u) g -> len acc + len (picture a g) <= max ->
  sampleStream a max acc (g ++ r) = sampleStream a max (acc ++ picture a g) r.
Proof.
  intros M. induction g as [|u g IH]; intros acc r N F.
  - cbn. rewrite app_nil_r. reflexivity.
  - inversion N as [|? ? N1 N2]; subst. cbn [picture flat_map] in F. change (flat_map (framed a) g) with (picture a g) in F.
    rewrite len_app, framed_len in F. pose proof (len_nonneg (picture a g)). cbn [app sampleStream].
    rewrite sample_fits by lia.
    destruct (match u with b :: _ => b mod 32 =? 9 | [] => false end) eqn:E; [apply delim_test in E; contradiction|].
    rewrite IH; [|exact N2|rewrite len_app, framed_len; lia]. cbn [picture flat_map]. rewrite <- app_assoc. reflexivity.
Qed.
Lemma sample_groups a max : max < 4294967296 -> forall gs tail,
  Forall (fun g => Forall (fun u => ~ isDelimiter u) (fst g) /\ isDelimiter (snd g) /\ len (picture a (fst g)) + 4 + len (snd g) <= max) gs ->
  Forall (fun u => ~ isDelimiter u) tail -> len (picture a tail) <= max ->
  sampleStream a max [] (stream gs ++ tail) = Some (map (fun g => (picture a (fst g), 0)) gs, picture a tail).
Proof.
  intros M. induction gs as [|[g d] gs IH]; intros tail F T L.
  - cbn [stream flat_map app map]. rewrite <- (app_nil_r tail) at 1. rewrite sample_group by assumption. reflexivity.
  - inversion F as [|? ? (F1 & F2 & F3) F']; subst. cbn [fst snd] in *. cbn [stream flat_map fst snd]. change (flat_map (fun g => fst g ++ [snd g]) gs) with (stream gs).
    pose proof (len_nonneg d). rewrite <- !app_assoc. rewrite sample_group by (try assumption; change (len []) with 0; lia). cbn [app sampleStream].
    rewrite sample_fits by lia. rewrite (proj2 (delim_test d) F2). rewrite IH by assumption. reflexivity.
Qed.

(** *** Fragmentation *)
Lemma lor_add a b k : 0 <= k -> 0 <= b < 2 ^ k -> Z.lor (Z.shiftl a k) b = a * 2 ^ k + b.
Proof.
  intros K B. rewrite Z.shiftl_mul_pow2 by exact K. symmetry.
  assert (Z0 : Z.land (a * 2 ^ k) b = 0).
  { apply Z.bits_inj'; intros n N; rewrite Z.land_spec, Z.bits_0. destruct (Z_lt_le_dec n k) as [L|L].
    - rewrite Z.mul_pow2_bits_low by exact L. reflexivity.
    - destruct (Z.eq_dec b 0) as [->|NZ]; [rewrite Z.bits_0; apply andb_false_r|].
      rewrite (Z.bits_above_log2 b n); [apply andb_false_r|lia|]. apply Z.log2_lt_pow2; [lia|].
      apply Z.lt_le_trans with (2 ^ k); [lia|]. apply Z.pow_le_mono_r; lia. }
  rewrite Z.add_nocarry_lxor by exact Z0. rewrite Z.lxor_lor by exact Z0. reflexivity.
Qed.
Lemma loadHeader_len ws : length (loadHeader ws) = (4 * length ws)%nat.
Proof. induction ws; [reflexivity|]. cbn [loadHeader flat_map]. rewrite app_length, be_length. change (flat_map (be 4) ws) with (loadHeader ws). rewrite IHws. cbn [length]. lia. Qed.
Lemma word_load : forall ws i d r, (i < length ws)%nat -> word i (loadHeader ws ++ r) = nth i ws d mod 4294967296.
Proof.
  unfold word. induction ws as [|w ws IH]; intros i d r L; [cbn in L; lia|]. cbn [loadHeader flat_map]. change (flat_map (be 4) ws) with (loadHeader ws).
  rewrite <- app_assoc. destruct i as [|i].
  - change (4 * 0)%nat with 0%nat. unfold sub. cbn [skipn]. rewrite firstn_app_len by apply be_length. rewrite rd_be. reflexivity.
  - cbn [nth length] in *. rewrite <- (IH i d r) by lia. f_equal. unfold sub.
    replace (4 * S i)%nat with (4 + 4 * i)%nat by lia. rewrite skipn_app, be_length.
    rewrite (skipn_all2 (be 4 w)) by (rewrite be_length; lia). cbn [app]. do 2 f_equal. lia.
Qed.
Lemma payload_load ws r : length ws = 6%nat -> payload (loadHeader ws ++ r) = r.
Proof. intros L. unfold payload. apply skipn_app_len. rewrite loadHeader_len, L. reflexivity. Qed.

(** The header a frame's packets carry, for the offset [o]. *)
Definition ugHeader (u : ugConfig) (b n o : Z) : list Z :=
  [w32 (Z.lor (Z.shiftl (utile u) 22) (Z.land 4194303 b)); o; n; w32 (Z.lor (Z.shiftl (uw u) 16) (uh u)); rd (tag "AVC1"%string); ugWord6 (uil u) (ufps u) (ufd u)].
Definition piece (d : bytes) (o k : Z) : bytes := firstn (Z.to_nat k) (skipn (Z.to_nat o) d).
(** Every step sends one piece: at most what fits, at least one byte. *)
Lemma frag_step u maxOut avail d cur b h : d <> [] -> 0 <= cur < len d -> 24 < Z.min avail maxOut ->
  (cur = 0 \/ exists o, h = ugHeader u b (len d) o) ->
  let k := Z.min (len d - cur) (Z.min avail maxOut - 24) in
  let fin := cur + k =? len d in
  exists w, (cur <> 0 -> w = 24 + k) /\ (cur = 0 -> w = len d + 48) /\ fragStep u maxOut avail (mkFr d cur b h) =
    (mkP (loadHeader (ugHeader u b (len d) cur) ++ piece d cur k) fin w,
     if fin then mkFr [] 0 (w32 (b + 1)) (ugHeader u b (len d) cur) else mkFr d (cur + k) b (ugHeader u b (len d) cur)).
Proof.
  intros N C M H k fin. unfold fragStep. cbn [fdata fcur fbuf fhdr].
  assert (EM : (if avail <? maxOut then avail else maxOut) = Z.min avail maxOut) by (destruct (Z.ltb_spec avail maxOut); lia). rewrite EM.
  set (m := Z.min avail maxOut) in *. clearbody m. clear EM. unfold HDR.
  assert (KB : 0 < k <= len d - cur) by (unfold k; lia).
  destruct (Z.eqb_spec cur 0) as [->|NC].
  - exists (len d + 48). split; [congruence|]. split; [reflexivity|]. change [_; 0; len d; _; _; _] with (ugHeader u b (len d) 0).
    set (H0 := ugHeader u b (len d) 0). assert (L0 : length H0 = 6%nat) by reflexivity. clearbody H0.
    assert (ES : (if len d + 24 <=? m then len d + 24 else m) = 24 + k) by (unfold k; destruct (Z.leb_spec (len d + 24) m); lia). rewrite ES.
    assert (EF : (len d + 24 <=? m) = fin) by (unfold fin, k; destruct (Z.leb_spec (len d + 24) m); symmetry; [apply Z.eqb_eq|apply Z.eqb_neq]; lia). rewrite EF.
    replace (24 + k - 24) with k by lia. change (0 + k) with k in *. change (k =? len d) with fin.
    f_equal. f_equal; [|lia]. unfold piece. cbn [skipn Z.to_nat]. rewrite firstn_app, loadHeader_len, L0.
    replace (Z.to_nat (24 + k) - 4 * 6)%nat with (Z.to_nat k) by lia. rewrite firstn_all2 by (rewrite loadHeader_len, L0; lia). reflexivity.
  - destruct H as [?|[o H]]; [contradiction|]. exists (24 + k). split; [reflexivity|]. split; [contradiction|].
    assert (EH : setNth2 cur h = ugHeader u b (len d) cur) by (rewrite H; reflexivity). rewrite EH.
    assert (ES : (if m <? 24 + (len d - cur) then m else 24 + (len d - cur)) = 24 + k) by (unfold k; destruct (Z.ltb_spec m (24 + (len d - cur))); lia). rewrite ES.
    assert (EF : negb (m <? 24 + (len d - cur)) = fin) by (unfold fin, k; destruct (Z.ltb_spec m (24 + (len d - cur))); symmetry; [apply Z.eqb_neq|apply Z.eqb_eq]; lia). rewrite EF.
    replace (24 + k - 24) with k by lia. fold fin. reflexivity.
Qed.
Lemma piece_len d o k : 0 <= o -> 0 <= k -> o + k <= len d -> len (piece d o k) = k.
Proof. intros A B C. unfold piece, len in *. rewrite firstn_length, skipn_length. lia. Qed.

Record sentAs (u : ugConfig) (b : Z) (d : bytes) (p : packet) : Prop := {
  sa_off : 0 <= offsetOf (pbytes p);
  sa_piece : payload (pbytes p) = piece d (offsetOf (pbytes p)) (len (payload (pbytes p)));
  sa_end : offsetOf (pbytes p) + len (payload (pbytes p)) <= len d;
  sa_hdr : pbytes p = loadHeader (ugHeader u b (len d) (offsetOf (pbytes p))) ++ payload (pbytes p);
  sa_last : plast p = (offsetOf (pbytes p) + len (payload (pbytes p)) =? len d) }.
Lemma frag_all u maxOut : forall avails d cur b h, d <> [] -> 0 <= cur < len d -> len d < 4294967296 ->
  (cur = 0 \/ exists o, h = ugHeader u b (len d) o) -> Forall (fun a => 24 < Z.min a maxOut) avails ->
  let ps := fst (fragAll u maxOut avails (mkFr d cur b h)) in
  let s := snd (fragAll u maxOut avails (mkFr d cur b h)) in
  Forall (sentAs u b d) ps /\
  (exists c', contiguous cur c' (map pbytes ps) /\ (fdata s = [] -> c' = len d /\ fcur s = 0 /\ fbuf s = w32 (b + 1)) /\
     (fdata s <> [] -> fdata s = d /\ c' < len d /\ cur + Z.of_nat (length avails) <= c' /\ Forall (fun p => plast p = false) ps)) /\
  (fdata s = [] -> exists init p, ps = init ++ [p] /\ plast p = true /\ Forall (fun p => plast p = false) init) /\
  (forall i p, nth_error ps i = Some p -> exists a, nth_error avails i = Some a /\ len (pbytes p) <= Z.min a maxOut).
Proof.
  induction avails as [|a avails IH]; intros d cur b h N C L H F.
  - cbn. split; [constructor|]. split; [|split; [intros ->; congruence|intros [|i] p E; discriminate]].
    exists cur. split; [reflexivity|]. split; [intros ->; congruence|]. intros _. split; [reflexivity|]. repeat split; try lia. constructor.
  - inversion F as [|? ? F1 F2]; subst. cbn [fragAll fdata].
    destruct (frag_step u maxOut a d cur b h N C F1 H) as (w & _ & _ & E). set (k := Z.min (len d - cur) (Z.min a maxOut - 24)) in *.
    destruct d as [|d0 d']; [congruence|]. set (d := d0 :: d') in *. rewrite E.
    assert (KB : 0 < k <= len d - cur) by (unfold k; lia). assert (KM : 24 + k <= Z.min a maxOut) by (unfold k; lia). clearbody k.
    assert (PL : payload (loadHeader (ugHeader u b (len d) cur) ++ piece d cur k) = piece d cur k) by (apply payload_load; reflexivity).
    assert (OF : offsetOf (loadHeader (ugHeader u b (len d) cur) ++ piece d cur k) = cur).
    { unfold offsetOf. rewrite (word_load _ 1 0) by (cbn; lia). cbn [nth ugHeader]. apply Z.mod_small. lia. }
    assert (PK : len (piece d cur k) = k) by (apply piece_len; lia).
    assert (LP : len (loadHeader (ugHeader u b (len d) cur) ++ piece d cur k) = 24 + k) by (rewrite len_app, PK; unfold len at 1; rewrite loadHeader_len; cbn; lia).
    set (P := loadHeader (ugHeader u b (len d) cur) ++ piece d cur k) in *.
    assert (SA : sentAs u b d (mkP P (cur + k =? len d) w)).
    { constructor; cbn [pbytes plast]; rewrite ?OF, ?PL, ?PK; try lia; try reflexivity. }
    destruct (Z.eqb_spec (cur + k) (len d)) as [FE|FE].
    + assert (R : forall av, fragAll u maxOut av (mkFr [] 0 (w32 (b + 1)) (ugHeader u b (len d) cur)) = ([], mkFr [] 0 (w32 (b + 1)) (ugHeader u b (len d) cur))) by (intros [|? ?]; reflexivity).
      rewrite R. cbn [fst snd fdata fcur fbuf map pbytes]. split; [constructor; [exact SA|constructor]|]. split; [|split].
      * exists (len d). split; [|split; [auto|intros X; congruence]]. cbn [contiguous]. rewrite OF, PL, PK. split; [reflexivity|]. split; [|exact FE].
        intros X. rewrite X in PK. change (len []) with 0 in PK. lia.
      * intros _. exists [], (mkP P true w). repeat split. constructor.
      * intros [|i] p Q; [|destruct i; discriminate]. injection Q as <-. exists a. split; [reflexivity|]. cbn [pbytes]. lia.
    + specialize (IH d (cur + k) b (ugHeader u b (len d) cur) ltac:(subst d; discriminate) ltac:(lia) L ltac:(right; eexists; reflexivity) F2).
      destruct (fragAll u maxOut avails (mkFr d (cur + k) b (ugHeader u b (len d) cur))) as [ps s]. cbn [fst snd] in *.
      destruct IH as (A1 & (c' & A2 & A3 & A4) & A5 & A6). split; [constructor; assumption|]. split; [|split].
      * exists c'. split; [|split; [exact A3|]].
        { cbn [map contiguous pbytes]. rewrite OF, PL, PK. split; [reflexivity|]. split; [|exact A2]. intros X. rewrite X in PK. change (len []) with 0 in PK. lia. }
        { intros X. destruct (A4 X) as (B1 & B2 & B3 & B4). split; [exact B1|]. split; [exact B2|]. split; [cbn [length]; lia|]. constructor; [reflexivity|exact B4]. }
      * intros X. destruct (A5 X) as (init & p & -> & B1 & B2). exists (mkP P false w :: init), p. split; [reflexivity|]. split; [exact B1|]. constructor; [reflexivity|exact B2].
      * intros [|i] p Q; [|exact (A6 i p Q)]. cbn [nth_error] in Q. injection Q as <-. exists a. split; [reflexivity|]. cbn [pbytes]. lia.
Qed.

(** *** Reassembly *)
Lemma put_len p buf : 0 <= offsetOf p -> offsetOf p + len (payload p) <= len buf -> len (put p buf) = len buf.
Proof. intros A B. unfold put, len in *. rewrite !app_length, firstn_length, skipn_length. lia. Qed.
Lemma nth_skipn (A : Type) (d : A) : forall n (l : list A) i, nth i (skipn n l) d = nth (n + i) l d.
Proof. induction n; intros l i; [reflexivity|]. destruct l; cbn [skipn Nat.add]; [destruct i; destruct n; reflexivity|]. apply IHn. Qed.
Lemma nth_firstn' (A : Type) (d : A) : forall n (l : list A) i, (i < n)%nat -> nth i (firstn n l) d = nth i l d.
Proof. induction n; intros l i L; [lia|]. destruct l; [reflexivity|]. destruct i; [reflexivity|]. cbn. apply IHn. lia. Qed.
Definition covers (p : bytes) (i : nat) : Prop := offsetOf p <= Z.of_nat i < offsetOf p + len (payload p).
Lemma put_nth d p buf i : 0 <= offsetOf p -> offsetOf p + len (payload p) <= len d -> len buf = len d ->
  payload p = piece d (offsetOf p) (len (payload p)) ->
  (covers p i -> nth i (put p buf) 0 = nth i d 0) /\ (~ covers p i -> nth i (put p buf) 0 = nth i buf 0).
Proof.
  intros A B LB PP. unfold covers. set (o := offsetOf p) in *. set (pl := payload p) in *. unfold put. fold o. fold pl.
  assert (LF : length (firstn (Z.to_nat o) buf) = Z.to_nat o) by (rewrite firstn_length; unfold len in *; lia).
  split; intros C.
  - rewrite app_nth2 by (rewrite LF; lia). rewrite LF. rewrite app_nth1 by (unfold len in *; lia).
    rewrite PP. unfold piece. rewrite nth_firstn' by (unfold len in *; lia). rewrite nth_skipn. f_equal. lia.
  - destruct (Z_lt_le_dec (Z.of_nat i) o) as [X|X].
    + rewrite app_nth1 by (rewrite LF; lia). apply nth_firstn'. lia.
    + rewrite app_nth2 by (rewrite LF; lia). rewrite LF. rewrite app_nth2 by (unfold len in *; lia).
      rewrite nth_skipn. f_equal. unfold len in *. lia.
Qed.
Definition isPiece (d : bytes) (p : bytes) : Prop :=
  0 <= offsetOf p /\ offsetOf p + len (payload p) <= len d /\ payload p = piece d (offsetOf p) (len (payload p)).
Lemma reassemble_spec d : forall ps buf, Forall (isPiece d) ps -> len buf = len d ->
  len (reassemble ps buf) = len d /\
  forall i, ((exists p, In p ps /\ covers p i) -> nth i (reassemble ps buf) 0 = nth i d 0) /\ (nth i buf 0 = nth i d 0 -> nth i (reassemble ps buf) 0 = nth i d 0).
Proof.
  induction ps as [|p ps IH]; intros buf F L.
  - cbn. split; [exact L|]. intros i. split; [intros (p & [] & _)|auto].
  - inversion F as [|? ? (F1 & F2 & F3) F']; subst. cbn [reassemble fold_left]. change (fold_left (fun b p => put p b) ps (put p buf)) with (reassemble ps (put p buf)).
    destruct (IH (put p buf) F') as (A & B). { rewrite put_len by lia. exact L. }
    split; [exact A|]. intros i. destruct (B i) as (B1 & B2). destruct (put_nth d p buf i F1 F2 L F3) as (P1 & P2).
    assert (DC : covers p i \/ ~ covers p i) by (unfold covers; lia).
    split.
    + intros (q & [<-|I] & C); [apply B2, P1, C|]. apply B1. exists q. auto.
    + intros X. apply B2. destruct DC as [C|C]; [apply P1, C|]. rewrite P2 by exact C. exact X.
Qed.
Lemma contiguous_covers : forall ps a b i, contiguous a b ps -> a <= Z.of_nat i < b -> exists p, In p ps /\ covers p i.
Proof.
  induction ps as [|p ps IH]; intros a b i C R; cbn [contiguous] in C; [lia|]. destruct C as (C1 & _ & C2).
  destruct (Z_lt_le_dec (Z.of_nat i) (a + len (payload p))) as [X|X].
  - exists p. split; [left; reflexivity|]. unfold covers. lia.
  - destruct (IH _ _ i C2 ltac:(lia)) as (q & Q1 & Q2). exists q. split; [right; exact Q1|exact Q2].
Qed.
Lemma reassemble_all d ps ps' buf : Forall (isPiece d) ps -> contiguous 0 (len d) ps -> incl ps ps' -> incl ps' ps -> len buf = len d ->
  reassemble ps' buf = d.
Proof.
  intros F C I1 I2 L.
  assert (F' : Forall (isPiece d) ps') by (apply Forall_forall; intros p P; rewrite Forall_forall in F; apply F, I2, P).
  destruct (reassemble_spec d ps' buf F' L) as (A & B).
  apply (nth_ext _ _ 0 0); [unfold len in A; lia|]. intros i Hi. destruct (B i) as (B1 & _). apply B1.
  destruct (contiguous_covers ps 0 (len d) i C) as (p & P1 & P2); [unfold len in *; lia|]. exists p. split; [apply I1, P1|exact P2].
Qed.
