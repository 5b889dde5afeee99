(** Proofs about NAL units. *)
From Verif Require Import Base Bytes NalModel NalSpec.
Local Open Scope list_scope.
Local Open Scope Z_scope.

(** *** Kinds and types. *)
Definition kindType (c : codec) (t : Z) : option kind :=
  match c with
  | AVC => match t with 7 => Some KSps | 8 => Some KPps | 6 => Some KSei | 5 => Some KKey | 1 => Some KNonKey | 9 => Some KAud | _ => None end
  | HEVC => match t with 32 => Some KVps | 33 => Some KSps | 34 => Some KPps | 39 | 40 => Some KSei | 35 => Some KAud
            | 19 | 20 | 21 => Some KKey | 0 | 1 => Some KNonKey | _ => None end
  end.
Lemma kind_type c b : kindOf c b = kindType c (unitType c b).
Proof. destruct c; reflexivity. Qed.
Ltac types t := destruct t as [|p|p]; try reflexivity; do 7 (destruct p as [p|p|]; try reflexivity).
Lemma kind_slice c t : match kindType c t with Some k => isSlice k | None => false end = oneOf (sliceTypes c) t.
Proof. destruct c; types t. Qed.
Lemma kind_key c t : match kindType c t with Some KKey => true | _ => false end = oneOf (keyTypes c) t.
Proof. destruct c; types t. Qed.
Lemma kind_known c t : match kindType c t with Some _ => true | None => false end = oneOf (knownTypes c) t.
Proof. destruct c; types t. Qed.
Lemma kind_aud c t : match kindType c t with Some KAud => true | _ => false end = (t =? delimType c).
Proof. destruct c; types t. Qed.
Lemma kind_sps c t : match kindType c t with Some KSps => true | _ => false end = (t =? spsType c).
Proof. destruct c; types t. Qed.
Lemma kind_param c t : match kindType c t with Some (KVps | KSps | KPps) => true | _ => false end = oneOf (paramTypes c) t.
Proof. destruct c; types t. Qed.

Definition kindU (c : codec) (u : nalUnit) : option kind := kindType c (typeOf c u).

(** *** Start codes. *)
Lemma detect c u : okUnit c u -> detectStartCode ((codeBytes (ucode u) ++ upayload u) ++ ustale u) = length (codeBytes (ucode u)).
Proof.
  intros (_ & B1 & B2 & H & _). unfold detectStartCode. destruct (ucode u) eqn:E; cbn [codeBytes app length].
  - destruct (H eq_refl) as [H1 H2]. assert (B: Forall isByte (upayload u ++ ustale u)) by (apply Forall_app; split; assumption).
    revert H1 H2 B. generalize (upayload u ++ ustale u). intros l H1 H2 B.
    assert (Q: forall i, 0 <= nth i l 0 < 256).
    { intros i. destruct (Nat.lt_ge_cases i (length l)) as [Y|Y]; [|rewrite nth_overflow by exact Y; lia].
      rewrite Forall_forall in B. apply (B (nth i l 0)). apply nth_In, Y. }
    pose proof (Q 0%nat). pose proof (Q 1%nat). pose proof (Q 2%nat). pose proof (Q 3%nat).
    destruct (Z.eqb_spec (nth 0 l 0 * 65536 + nth 1 l 0 * 256 + nth 2 l 0) 1) as [E1|_].
    + exfalso. assert (A: nth 0 l 0 = 0 /\ nth 1 l 0 = 0 /\ nth 2 l 0 = 1) by lia. destruct A as (A0 & A1 & A2).
      destruct l as [|a [|b [|d l]]]; cbn [nth] in *; try lia. apply H1. subst. reflexivity.
    + destruct (Z.eqb_spec (nth 0 l 0 * 16777216 + nth 1 l 0 * 65536 + nth 2 l 0 * 256 + nth 3 l 0) 1) as [E1|_]; [|reflexivity].
      exfalso. assert (A: nth 0 l 0 = 0 /\ nth 1 l 0 = 0 /\ nth 2 l 0 = 0 /\ nth 3 l 0 = 1) by lia. destruct A as (A0 & A1 & A2 & A3).
      destruct l as [|a [|b [|d [|e l]]]]; cbn [nth] in *; try lia. apply H2. subst. reflexivity.
  - reflexivity.
  - reflexivity.
Qed.

(** One unit of an access unit with the given times. *)
Definition wireU (u : nalUnit) (pts dts w h : Z) : nal := mkNal (codeBytes (ucode u) ++ upayload u) (ustale u) pts dts w h.

Definition later (pts dts : Z) (p : pict) : bool := frameTime (ppts p) (pdts p) <? frameTime pts dts.
Definition full (c : codec) (p : pict) : bool := match c with AVC => negb (isEmpty (pbytes p)) | HEVC => true end.
Lemma isEmpty_len l : negb (len l =? 0) = negb (isEmpty l).
Proof. destruct l; [reflexivity|]. cbn [isEmpty]. unfold len. destruct (Z.eqb_spec (Z.of_nat (length (z :: l))) 0); [cbn in *; lia|reflexivity]. Qed.

(** What parseNal does on a well formed unit. *)
Lemma parse_unit c u pts dts w h s : okUnit c u ->
  parseNal c (wireU u pts dts w h) s =
  match kindU c u with
  | None => Parsed false (setIntra (currentIntra s) (currentIntra s) s)
  | Some k =>
      let s1 := setIntra (match k with KKey => true | KAud => currentIntra s | _ => false end) (currentIntra s) (save k (upayload u) s) in
      let nf := (match k with KAud => true | _ => false end || later pts dts (tmpFrame s)) && full c (tmpFrame s) in
      let s2 := if nf then setFrames (resetFrame (vFrame s)) (tmpFrame s) s1 else s1 in
      Parsed nf (if isSlice k then match appendNalToFrame (tmpFrame s2) (upayload u) w h pts dts with
                                   | Some t => setFrames t (vFrame s2) s2 | None => s2 end else s2)
  end.
Proof.
  intros H. unfold parseNal, wireU. cbn [nraw nstale npts ndts nw nh]. rewrite (detect c u H).
  destruct (Nat.ltb_spec (length (codeBytes (ucode u) ++ upayload u)) (length (codeBytes (ucode u)))) as [X|_]; [rewrite app_length in X; lia|].
  rewrite skipn_app_len by reflexivity. unfold kindU, typeOf. destruct H as (N & _). set (pl := upayload u) in *. clearbody pl. destruct pl as [|b r]; [congruence|]. set (pl := b :: r). change (nth 0 pl 0) with b. rewrite kind_type. cbv zeta.
  assert (T: forall k, tmpFrame (save k pl s) = tmpFrame s /\ vFrame (save k pl s) = vFrame s) by (intros []; split; reflexivity).
  destruct (kindType c (unitType c b)) as [k|]; [|reflexivity]. cbv zeta. cbn [setIntra tmpFrame vFrame]. destruct (T k) as [-> ->].
  unfold later, full. destruct c; rewrite ?isEmpty_len; reflexivity.
Qed.

(** The extradata step only touches parameter sets, and does not fail when the stored sequence parameter
    set has three bytes. *)
Definition spsOk (s : vstate) : Prop := sps s = [] \/ 3 <= len (sps s).
Lemma extradata_step c s : spsOk s -> exists s', updateExtradata c s = Some s' /\ tmpFrame s' = tmpFrame s /\ vFrame s' = vFrame s /\
  currentIntra s' = currentIntra s /\ previousIntra s' = previousIntra s /\ spsOk s'.
Proof.
  intros SO. unfold updateExtradata. destruct c.
  - destruct (isEmpty (sps s)) eqn:E1; cbn [orb]; [exists s; repeat split; try reflexivity; exact SO|].
    destruct (isEmpty (pps s)); cbn [orb]; [exists s; repeat split; try reflexivity; exact SO|].
    unfold avcExtradata. destruct SO as [X|X]; [rewrite X in E1; discriminate|]. destruct (Z.ltb_spec (len (sps s)) 3); [lia|].
    eexists. do 5 (split; [reflexivity|]). left. reflexivity.
  - destruct (isEmpty (vps s) || isEmpty (sps s) || isEmpty (pps s)); [exists s; repeat split; try reflexivity; exact SO|].
    eexists. do 5 (split; [reflexivity|]). left. reflexivity.
Qed.

(** *** Packing and unpacking. *)
Definition pack (l : list bytes) : bytes := concat (map (fun x => be 4 (len x) ++ x) l).
Lemma pack_snoc l x : pack (l ++ [x]) = pack l ++ be 4 (len x) ++ x.
Proof. unfold pack. rewrite map_app, concat_app. cbn [map concat]. rewrite app_nil_r. reflexivity. Qed.
Lemma pack_size l : len (pack l) = sizeOf l.
Proof.
  induction l as [|x l IH]; [reflexivity|]. change (pack (x :: l)) with ((be 4 (len x) ++ x) ++ pack l). rewrite !len_app, IH. cbn [sizeOf fold_right].
  unfold len at 1. rewrite be_length. fold (sizeOf l). lia.
Qed.
Lemma size_nonneg l : 0 <= sizeOf l.
Proof. rewrite <- pack_size. apply len_nonneg. Qed.
Lemma size_app a b : sizeOf (a ++ b) = sizeOf a + sizeOf b.
Proof. rewrite <- !pack_size. unfold pack. rewrite map_app, concat_app, len_app. reflexivity. Qed.
Lemma size_in l x : In x l -> len x <= sizeOf l.
Proof.
  induction l as [|y l IH]; [intros []|]. cbn [sizeOf fold_right]. fold (sizeOf l). pose proof (size_nonneg l). intros [<-|I]; [lia|].
  specialize (IH I). pose proof (len_nonneg y). lia.
Qed.
Lemma split_pack : forall l f, (length (pack l) <= f)%nat -> Forall (fun x => len x < 4294967296) l -> split4 f (pack l) = Some l.
Proof.
  induction l as [|x l IH]; intros f F W; [destruct f; reflexivity|]. inversion W as [|? ? W0 W1]; subst.
  change (pack (x :: l)) with ((be 4 (len x) ++ x) ++ pack l) in *. rewrite <- app_assoc in *.
  pose proof (be_length 4 (len x)) as L4. assert (LX: length (be 4 (len x) ++ x ++ pack l) = (4 + length x + length (pack l))%nat) by (rewrite !app_length, L4; lia).
  rewrite LX in F. destruct f as [|f]; [lia|].
  assert (R: rd (sub 0 4 (be 4 (len x) ++ x ++ pack l)) = len x).
  { unfold sub. cbn [skipn]. rewrite firstn_app_len by exact L4. apply rd_be_id. pose proof (len_nonneg x). change (256 ^ Z.of_nat 4) with 4294967296. lia. }
  destruct (be 4 (len x) ++ x ++ pack l) as [|b0 r0] eqn:E; [cbn in LX; lia|]. unfold split4; fold split4. rewrite <- E in *. rewrite R.
  replace (Z.to_nat (len x)) with (length x) by (unfold len; rewrite Nat2Z.id; reflexivity). cbv zeta. destruct (Nat.ltb_spec (length (be 4 (len x) ++ x ++ pack l)) (4 + length x)) as [X|_]; [rewrite LX in X; lia|].
  replace (skipn (4 + length x) (be 4 (len x) ++ x ++ pack l)) with (pack l).
  2:{ rewrite app_assoc, skipn_app_len; [reflexivity|]. rewrite app_length, L4. reflexivity. }
  rewrite IH; [|lia|exact W1]. f_equal. f_equal. apply sub_app; [exact L4|reflexivity].
Qed.
Lemma units_pack l : sizeOf l <= 10485760 -> unitsOf (pack l) = Some l.
Proof.
  intros B. unfold unitsOf. apply split_pack; [lia|]. apply Forall_forall. intros x I. pose proof (size_in l x I). lia.
Qed.

(** *** Marks. *)
Definition mark (c : codec) (us : list nalUnit) (b : bool) : bool :=
  fold_left (fun m u => if decides c u then isA c (keyTypes c) u else m) us b.
Lemma mark_decided c us b : (exists u, In u us /\ decides c u = true) -> mark c us b = lastIsKey c (mkAU us 0 0 0 0).
Proof.
  unfold lastIsKey, mark. cbn [aunits]. revert b. induction us as [|u us IH] using rev_ind; intros b (v & I & D); [destruct I|].
  rewrite fold_left_app, filter_app, rev_app_distr. cbn [fold_left filter rev]. destruct (decides c u) eqn:E; [reflexivity|]. cbn [app rev].
  apply IH. exists v. apply in_app_or in I. destruct I as [I|[<-|[]]]; [split; assumption|congruence].
Qed.
Lemma kind_decides c u : decides c u = match kindU c u with Some KAud | None => false | Some _ => true end.
Proof.
  unfold decides, isA. rewrite <- kind_known, <- kind_aud. unfold kindU. destruct (kindType c (typeOf c u)) as [[]|]; reflexivity.
Qed.
Lemma kind_isKey c u : isA c (keyTypes c) u = match kindU c u with Some KKey => true | _ => false end.
Proof. unfold isA. rewrite <- kind_key. reflexivity. Qed.
Lemma kind_isSlice c u : isA c (sliceTypes c) u = match kindU c u with Some k => isSlice k | None => false end.
Proof. unfold isA. rewrite <- kind_slice. reflexivity. Qed.
Lemma slice_decides c u : isA c (sliceTypes c) u = true -> decides c u = true.
Proof. rewrite kind_isSlice, kind_decides. destruct (kindU c u) as [[]|]; try discriminate; reflexivity. Qed.

(** *** States. [done]: the units of the access unit [a] already taken. *)
Definition slicesU (c : codec) (us : list nalUnit) : list bytes := map upayload (filter (isA c (sliceTypes c)) us).
Record inAU (c : codec) (a : accessUnit) (done : list nalUnit) (b : bool) (s : vstate) : Prop := mkInAU {
  u_bytes : pbytes (tmpFrame s) = pack (slicesU c done);
  u_times : slicesU c done <> [] -> ppts (tmpFrame s) = apts a /\ pdts (tmpFrame s) = adts a /\ pw (tmpFrame s) = aw a /\ ph (tmpFrame s) = ah a;
  u_mark : currentIntra s = mark c done b;
  u_sps : spsOk s
}.
Lemma slicesU_snoc c us u : slicesU c (us ++ [u]) = slicesU c us ++ (if isA c (sliceTypes c) u then [upayload u] else []).
Proof. unfold slicesU. rewrite filter_app, map_app. cbn [filter]. destruct (isA c (sliceTypes c) u); reflexivity. Qed.
Lemma mark_snoc c us u b : mark c (us ++ [u]) b = if decides c u then isA c (keyTypes c) u else mark c us b.
Proof. unfold mark. rewrite fold_left_app. reflexivity. Qed.
Lemma pack_nil l : pack l = [] -> l = [].
Proof. destruct l as [|x l]; [reflexivity|]. intros H. apply (f_equal (@length Z)) in H. change (pack (x :: l)) with ((be 4 (len x) ++ x) ++ pack l) in H. rewrite !app_length, be_length in H. cbn in H. lia. Qed.

(** A known unit, when the picture in hand is [t]: the common part. *)
Lemma save_sps c u s : okUnit c u -> spsOk s -> forall k, kindU c u = Some k -> spsOk (save k (upayload u) s).
Proof.
  intros (_ & _ & _ & _ & L) SO k K. destruct k; try exact SO. right. cbn [save sps]. apply L. apply Z.eqb_eq. rewrite <- kind_sps. unfold kindU in K. rewrite K. reflexivity.
Qed.
Definition unitIn (a : accessUnit) (u : nalUnit) : nal := wireU u (apts a) (adts a) (aw a) (ah a).

(** A unit of the same access unit: nothing is given out. *)
Lemma step_inside c a done b s u : inAU c a done b s -> okUnit c u -> (typeOf c u = delimType c -> slicesU c done = []) ->
  sizeOf (slicesU c (done ++ [u])) <= 10485760 ->
  exists s', manageFrame c (unitIn a u) s = Some (None, s') /\ inAU c a (done ++ [u]) b s'.
Proof.
  intros I OK AD SZ. unfold manageFrame, unitIn. rewrite (parse_unit c u _ _ _ _ s OK).
  destruct (kindU c u) as [k|] eqn:K.
  2:{ destruct (extradata_step c (setIntra (currentIntra s) (currentIntra s) s)) as (s' & E & T & V & C & P & SO); [exact (u_sps _ _ _ _ _ I)|].
      rewrite E. cbn [andb]. exists s'. split; [reflexivity|].
      assert (SL: isA c (sliceTypes c) u = false) by (rewrite kind_isSlice, K; reflexivity).
      assert (DC: decides c u = false) by (rewrite kind_decides, K; reflexivity).
      constructor.
      - rewrite T, slicesU_snoc, SL, app_nil_r. exact (u_bytes _ _ _ _ _ I).
      - rewrite slicesU_snoc, SL, app_nil_r, T. exact (u_times _ _ _ _ _ I).
      - rewrite C, mark_snoc, DC. exact (u_mark _ _ _ _ _ I).
      - exact SO. }
  cbv zeta.
  assert (NF: (match k with KAud => true | _ => false end || later (apts a) (adts a) (tmpFrame s)) && full c (tmpFrame s) = true -> pbytes (tmpFrame s) = []).
  { intros X. apply andb_true_iff in X. destruct X as [X1 X2]. destruct (slicesU c done) as [|x0 xs] eqn:EX; [rewrite (u_bytes _ _ _ _ _ I), EX; reflexivity|exfalso].
    destruct (u_times _ _ _ _ _ I) as (Q1 & Q2 & _ & _); [rewrite EX; discriminate|].
    apply orb_true_iff in X1. destruct X1 as [X1|X1].
    - assert (A: typeOf c u = delimType c) by (apply Z.eqb_eq; rewrite <- kind_aud; unfold kindU in K; rewrite K; exact X1). specialize (AD A). discriminate.
    - unfold later in X1. rewrite Q1, Q2 in X1. apply Z.ltb_lt in X1. lia. }
  set (nf := (match k with KAud => true | _ => false end || later (apts a) (adts a) (tmpFrame s)) && full c (tmpFrame s)) in *.
  set (s1 := setIntra (match k with KKey => true | KAud => currentIntra s | _ => false end) (currentIntra s) (save k (upayload u) s)).
  assert (T1: tmpFrame s1 = tmpFrame s /\ vFrame s1 = vFrame s) by (unfold s1; destruct k; split; reflexivity). destruct T1 as [T1 V1].
  assert (S1: spsOk s1) by (unfold s1; apply (save_sps c u s OK (u_sps _ _ _ _ _ I) k K)).
  set (s2 := if nf then setFrames (resetFrame (vFrame s)) (tmpFrame s) s1 else s1).
  assert (B2: pbytes (tmpFrame s2) = pack (slicesU c done)).
  { unfold s2. destruct nf; [|rewrite T1; exact (u_bytes _ _ _ _ _ I)]. cbn [setFrames tmpFrame resetFrame pbytes]. rewrite <- (u_bytes _ _ _ _ _ I). symmetry. apply NF. reflexivity. }
  assert (TT: slicesU c done <> [] -> tmpFrame s2 = tmpFrame s).
  { unfold s2. intros N. destruct nf; [|exact T1]. exfalso. apply N. apply pack_nil. rewrite <- (u_bytes _ _ _ _ _ I). apply NF. reflexivity. }
  assert (EV: nf = true -> pbytes (vFrame s2) = []) by (unfold s2; intros ->; cbn [setFrames vFrame]; apply NF; reflexivity).
  assert (S2: spsOk s2) by (unfold s2; destruct nf; exact S1).
  assert (C2: currentIntra s2 = match k with KKey => true | KAud => currentIntra s | _ => false end) by (unfold s2; destruct nf; reflexivity).
  set (s3 := if isSlice k then match appendNalToFrame (tmpFrame s2) (upayload u) (aw a) (ah a) (apts a) (adts a) with
                               | Some t => setFrames t (vFrame s2) s2 | None => s2 end else s2).
  assert (SL: isA c (sliceTypes c) u = isSlice k) by (rewrite kind_isSlice, K; reflexivity).
  assert (AP: isSlice k = true -> appendNalToFrame (tmpFrame s2) (upayload u) (aw a) (ah a) (apts a) (adts a) =
              Some (mkPict (pack (slicesU c (done ++ [u]))) (apts a) (adts a) (aw a) (ah a))).
  { intros Y. unfold appendNalToFrame. rewrite B2, slicesU_snoc, SL, Y, pack_snoc.
    rewrite slicesU_snoc, SL, Y, size_app in SZ. cbn [sizeOf fold_right] in SZ. rewrite pack_size.
    destruct (Z.ltb_spec LENGTH_H264_FRAME (sizeOf (slicesU c done) + len (upayload u) + 4)) as [X|_]; [unfold LENGTH_H264_FRAME in X; lia|reflexivity]. }
  assert (I3: pbytes (tmpFrame s3) = pack (slicesU c (done ++ [u])) /\
              (slicesU c (done ++ [u]) <> [] -> ppts (tmpFrame s3) = apts a /\ pdts (tmpFrame s3) = adts a /\ pw (tmpFrame s3) = aw a /\ ph (tmpFrame s3) = ah a) /\
              currentIntra s3 = currentIntra s2 /\ vFrame s3 = vFrame s2 /\ spsOk s3).
  { unfold s3. destruct (isSlice k) eqn:Y.
    - rewrite AP by reflexivity. cbn [setFrames tmpFrame vFrame pbytes ppts pdts pw ph currentIntra]. do 3 (split; [try reflexivity; intros _; repeat split|]). split; [reflexivity|exact S2].
    - rewrite slicesU_snoc, SL, app_nil_r. split; [exact B2|]. split; [intros N; rewrite (TT N); exact (u_times _ _ _ _ _ I N)|]. repeat split; exact S2. }
  destruct I3 as (J1 & J2 & J3 & J4 & J5).
  destruct (extradata_step c s3 J5) as (s' & E & T & V & C & P & SO). rewrite E. exists s'. split.
  - f_equal. f_equal. rewrite V, J4. destruct nf eqn:ENF; cbn [andb]; [|reflexivity]. rewrite EV by reflexivity. reflexivity.
  - constructor.
    + rewrite T. exact J1.
    + rewrite T. exact J2.
    + rewrite C, J3, C2, mark_snoc, kind_decides, kind_isKey, K. destruct k; try reflexivity. exact (u_mark _ _ _ _ _ I).
    + exact SO.
Qed.

(** The first known unit of the next access unit: the picture of the previous one is given out. *)
Lemma step_boundary c a us b0 bb done s u : inAU c a us b0 s -> slicesU c us <> [] -> okUnit c u -> isA c (knownTypes c) u = true ->
  (typeOf c u = delimType c \/ timeOf a < timeOf bb) -> slicesU c done = [] -> mark c done (currentIntra s) = currentIntra s ->
  sizeOf (slicesU c (done ++ [u])) <= 10485760 ->
  exists s', manageFrame c (unitIn bb u) s = Some (Some (mkOut (mkPict (pack (slicesU c us)) (apts a) (adts a) (aw a) (ah a)) (currentIntra s)), s') /\
    inAU c bb (done ++ [u]) (currentIntra s) s'.
Proof.
  intros I NE OK KN BD DN DM SZ. unfold manageFrame, unitIn. rewrite (parse_unit c u _ _ _ _ s OK).
  unfold isA in KN. rewrite <- kind_known in KN. destruct (kindU c u) as [k|] eqn:K; unfold kindU in K; rewrite K in KN; [|discriminate]. cbv zeta.
  destruct (u_times _ _ _ _ _ I NE) as (Q1 & Q2 & Q3 & Q4).
  assert (NF: (match k with KAud => true | _ => false end || later (apts bb) (adts bb) (tmpFrame s)) && full c (tmpFrame s) = true).
  { apply andb_true_iff. split.
    - apply orb_true_iff. destruct BD as [BD|BD]; [left|right].
      + apply Z.eqb_eq in BD. rewrite <- kind_aud, K in BD. exact BD.
      + unfold later. rewrite Q1, Q2. apply Z.ltb_lt. exact BD.
    - unfold full. destruct c; [|reflexivity]. rewrite (u_bytes _ _ _ _ _ I). destruct (pack (slicesU AVC us)) eqn:E; [|reflexivity]. apply pack_nil in E. congruence. }
  rewrite NF.
  set (s1 := setIntra (match k with KKey => true | KAud => currentIntra s | _ => false end) (currentIntra s) (save k (upayload u) s)).
  assert (S1: spsOk s1) by (unfold s1; apply (save_sps c u s OK (u_sps _ _ _ _ _ I) k K)).
  set (s2 := setFrames (resetFrame (vFrame s)) (tmpFrame s) s1).
  set (s3 := if isSlice k then match appendNalToFrame (tmpFrame s2) (upayload u) (aw bb) (ah bb) (apts bb) (adts bb) with
                               | Some t => setFrames t (vFrame s2) s2 | None => s2 end else s2).
  assert (SL: isA c (sliceTypes c) u = isSlice k) by (rewrite kind_isSlice; unfold kindU; rewrite K; reflexivity).
  assert (SU: slicesU c (done ++ [u]) = if isSlice k then [upayload u] else []) by (rewrite slicesU_snoc, DN, SL; reflexivity).
  assert (I3: pbytes (tmpFrame s3) = pack (slicesU c (done ++ [u])) /\
              (slicesU c (done ++ [u]) <> [] -> ppts (tmpFrame s3) = apts bb /\ pdts (tmpFrame s3) = adts bb /\ pw (tmpFrame s3) = aw bb /\ ph (tmpFrame s3) = ah bb) /\
              currentIntra s3 = currentIntra s2 /\ vFrame s3 = tmpFrame s /\ previousIntra s3 = currentIntra s /\ spsOk s3).
  { unfold s3. rewrite SU in *. destruct (isSlice k) eqn:Y.
    - unfold appendNalToFrame. cbn [sizeOf fold_right] in SZ. cbn [s2 setFrames tmpFrame vFrame pbytes resetFrame].
      change (len (@nil Z)) with 0.
      destruct (Z.ltb_spec LENGTH_H264_FRAME (0 + len (upayload u) + 4)) as [X|_]; [unfold LENGTH_H264_FRAME in X; lia|].
      cbn [setFrames tmpFrame vFrame pbytes ppts pdts pw ph currentIntra previousIntra app].
      split; [unfold pack; cbn [map concat]; rewrite app_nil_r; reflexivity|]. split; [intros _; repeat split|]. do 3 (split; [reflexivity|]). exact S1.
    - split; [reflexivity|]. split; [congruence|]. do 3 (split; [reflexivity|]). exact S1. }
  destruct I3 as (J1 & J2 & J3 & J4 & J5 & J6).
  destruct (extradata_step c s3 J6) as (s' & E & T & V & C & P & SO). rewrite E. exists s'. split.
  - f_equal. f_equal. rewrite V, J4. cbn [andb]. destruct (isEmpty (pbytes (tmpFrame s))) eqn:EE.
    + exfalso. destruct (pbytes (tmpFrame s)) eqn:EB; [|discriminate]. rewrite (u_bytes _ _ _ _ _ I) in EB. apply pack_nil in EB. congruence.
    + cbn [negb]. f_equal. f_equal; [|rewrite P, J5; reflexivity].
      rewrite <- (u_bytes _ _ _ _ _ I), <- Q1, <- Q2, <- Q3, <- Q4. destruct (tmpFrame s); reflexivity.
  - constructor.
    + rewrite T. exact J1.
    + rewrite T. exact J2.
    + rewrite C, J3. change (currentIntra s2) with (match k with KKey => true | KAud => currentIntra s | _ => false end).
      rewrite mark_snoc, kind_decides, kind_isKey. unfold kindU. rewrite K, DM. destruct k; reflexivity.
    + exact SO.
Qed.

(** A unit of unknown type changes nothing. *)
Lemma step_unknown c a us b0 bb s u : inAU c a us b0 s -> okUnit c u -> isA c (knownTypes c) u = false ->
  exists s', manageFrame c (unitIn bb u) s = Some (None, s') /\ inAU c a us b0 s' /\ currentIntra s' = currentIntra s.
Proof.
  intros I OK KN. unfold manageFrame, unitIn. rewrite (parse_unit c u _ _ _ _ s OK).
  unfold isA in KN. rewrite <- kind_known in KN. unfold kindU. destruct (kindType c (typeOf c u)) as [k|]; [discriminate|].
  destruct (extradata_step c (setIntra (currentIntra s) (currentIntra s) s)) as (s' & E & T & V & C & P & SO); [exact (u_sps _ _ _ _ _ I)|].
  rewrite E. exists s'. split; [reflexivity|]. split; [|exact C].
  constructor; [rewrite T; apply I|rewrite T; apply I|rewrite C; apply I|exact SO].
Qed.

(** *** Whole access units. *)
Lemma feed_app c l1 : forall l2 s, feed c (l1 ++ l2) s =
  match feed c l1 s with None => None | Some (o1, s1) => match feed c l2 s1 with None => None | Some (o2, s2) => Some (o1 ++ o2, s2) end end.
Proof.
  induction l1 as [|n l1 IH]; intros l2 s; cbn [app feed]; [destruct (feed c l2 s) as [[? ?]|]; reflexivity|].
  destruct (manageFrame c n s) as [[o s1]|]; [|reflexivity]. rewrite IH. destruct (feed c l1 s1) as [[o1 s2]|]; [|reflexivity].
  destruct (feed c l2 s2) as [[o2 s3]|]; [|reflexivity]. rewrite app_assoc. reflexivity.
Qed.

Lemma feed_inside c a b : forall rest done s, inAU c a done b s -> Forall (okUnit c) rest ->
  Forall (fun u => typeOf c u = delimType c -> slicesU c done = [] /\ rest = u :: tl rest) (firstn 1 rest) ->
  Forall (fun u => typeOf c u <> delimType c) (tl rest) ->
  sizeOf (slicesU c (done ++ rest)) <= 10485760 ->
  exists s', feed c (map (unitIn a) rest) s = Some ([], s') /\ inAU c a (done ++ rest) b s'.
Proof.
  induction rest as [|u rest IH]; intros done s I OK F T SZ; [exists s; rewrite app_nil_r; split; [reflexivity|exact I]|].
  inversion OK as [|? ? OK0 OK1]; subst. cbn [map feed].
  assert (SZ1: sizeOf (slicesU c (done ++ [u])) <= 10485760).
  { replace (done ++ u :: rest) with ((done ++ [u]) ++ rest) in SZ by (rewrite <- app_assoc; reflexivity). unfold slicesU in SZ. rewrite filter_app, map_app, size_app in SZ.
    fold (slicesU c (done ++ [u])) in SZ. pose proof (size_nonneg (map upayload (filter (isA c (sliceTypes c)) rest))). lia. }
  destruct (step_inside c a done b s u I OK0) as (s1 & E1 & I1).
  { intros A. cbn [firstn] in F. inversion F as [|? ? F0 _]; subst. apply (F0 A). }
  { exact SZ1. }
  rewrite E1. destruct (IH (done ++ [u]) s1 I1 OK1) as (s2 & E2 & I2).
  - cbn [tl] in T. destruct rest as [|v rest]; [constructor|]. cbn [firstn]. constructor; [|constructor]. intros A. inversion T; subst. congruence.
  - cbn [tl] in T. destruct rest as [|v rest]; [constructor|]. inversion T; subst. assumption.
  - rewrite <- app_assoc. exact SZ.
  - rewrite E2. exists s2. split; [reflexivity|]. rewrite <- app_assoc in I2. exact I2.
Qed.

(** From the end of access unit [a] through the next one. *)
Lemma feed_next c a us b0 bb : timeOf a < timeOf bb \/ startsDelimited c bb = true -> forall rest done s,
  inAU c a us b0 s -> slicesU c us <> [] -> aunits bb = done ++ rest ->
  Forall (fun u => isA c (knownTypes c) u = false) done -> Forall (okUnit c) rest ->
  Forall (fun u => typeOf c u <> delimType c) (tl (aunits bb)) ->
  slicesU c rest <> [] -> sizeOf (slicesU c (done ++ rest)) <= 10485760 -> (startsDelimited c bb = true -> timeOf a < timeOf bb \/ done = []) ->
  exists s', feed c (map (unitIn bb) rest) s = Some ([mkOut (mkPict (pack (slicesU c us)) (apts a) (adts a) (aw a) (ah a)) (mark c us b0)], s') /\
    inAU c bb (aunits bb) (mark c us b0) s'.
Proof.
  intros SEP. induction rest as [|u rest IH]; intros done s I NE EU UK OK TL NS SZ SD; [exfalso; apply NS; reflexivity|].
  inversion OK as [|? ? OK0 OK1]; subst. cbn [map feed].
  assert (UKS: forall d, Forall (fun u => isA c (knownTypes c) u = false) d -> slicesU c d = [] /\ forall m, mark c d m = m).
  { clear. intros d F. induction F as [|v d V F [IH1 IH2]]; [split; reflexivity|].
    assert (DV: decides c v = false) by (unfold decides; rewrite V; reflexivity).
    assert (SV: isA c (sliceTypes c) v = false).
    { destruct (isA c (sliceTypes c) v) eqn:E; [|reflexivity]. apply slice_decides in E. congruence. }
    split; [unfold slicesU; cbn [filter]; rewrite SV; exact IH1|]. intros m. unfold mark. cbn [fold_left]. rewrite DV. apply IH2. }
  destruct (UKS done UK) as [UK1 UK2].
  assert (SZ1: sizeOf (slicesU c (done ++ [u])) <= 10485760).
  { replace (done ++ u :: rest) with ((done ++ [u]) ++ rest) in SZ by (rewrite <- app_assoc; reflexivity). unfold slicesU in SZ. rewrite filter_app, map_app, size_app in SZ.
    fold (slicesU c (done ++ [u])) in SZ. pose proof (size_nonneg (map upayload (filter (isA c (sliceTypes c)) rest))). lia. }
  destruct (isA c (knownTypes c) u) eqn:KN.
  - assert (BD: typeOf c u = delimType c \/ timeOf a < timeOf bb).
    { destruct SEP as [L|D]; [right; exact L|]. destruct (SD D) as [L|DE]; [right; exact L|]. subst done. cbn [app] in EU.
      unfold startsDelimited in D. rewrite EU in D. left. apply Z.eqb_eq, D. }
    destruct (step_boundary c a us b0 bb done s u I NE OK0 KN BD UK1 (UK2 _) SZ1) as (s1 & E1 & I1). rewrite E1.
    destruct (feed_inside c bb (currentIntra s) rest (done ++ [u]) s1 I1 OK1) as (s2 & E2 & I2).
    + destruct rest as [|v rest]; [constructor|]. cbn [firstn]. constructor; [|constructor]. intros A. exfalso. rewrite EU in TL.
      destruct done as [|d0 done]; cbn [app tl] in TL; [rewrite Forall_forall in TL; apply (TL v); [left; reflexivity|exact A]|]. apply Forall_app in TL. destruct TL as [_ TL]. rewrite Forall_forall in TL. apply (TL v); [right; left; reflexivity|exact A].
    + rewrite EU in TL. assert (TR: Forall (fun u => typeOf c u <> delimType c) rest).
      { destruct done as [|d0 done]; cbn [app tl] in TL; [exact TL|]. apply Forall_app in TL. destruct TL as [_ TL]. inversion TL; assumption. }
      destruct rest; [constructor|]. inversion TR; assumption.
    + rewrite <- app_assoc. exact SZ.
    + rewrite E2. exists s2. rewrite <- app_assoc in I2. cbn [app] in I2. rewrite <- EU in I2. rewrite (u_mark _ _ _ _ _ I) in *. split; [reflexivity|exact I2].
  - destruct (step_unknown c a us b0 bb s u I OK0 KN) as (s1 & E1 & I1 & C1). rewrite E1.
    assert (NSL: isA c (sliceTypes c) u = false).
    { destruct (isA c (sliceTypes c) u) eqn:E; [|reflexivity]. apply slice_decides in E. unfold decides in E. rewrite KN in E. discriminate. }
    destruct (IH (done ++ [u]) s1 I1 NE) as (s2 & E2 & I2).
    + rewrite <- app_assoc. exact EU.
    + apply Forall_app. split; [exact UK|]. constructor; [exact KN|constructor].
    + exact OK1.
    + exact TL.
    + unfold slicesU in NS. cbn [filter] in NS. rewrite NSL in NS. exact NS.
    + rewrite <- app_assoc. exact SZ.
    + intros D. destruct (SD D) as [L|DE]; [left; exact L|]. exfalso. subst done. cbn [app] in EU. unfold startsDelimited in D. rewrite EU in D.
      apply Z.eqb_eq in D. unfold isA in KN. rewrite <- kind_known in KN. assert (X: (typeOf c u =? delimType c) = true) by (apply Z.eqb_eq, D). rewrite <- kind_aud in X.
      destruct (kindType c (typeOf c u)); discriminate.
    + rewrite E2. exists s2. split; [reflexivity|exact I2].
Qed.

Lemma has_decider c us : slicesU c us <> [] -> exists u, In u us /\ decides c u = true.
Proof.
  unfold slicesU. intros N. destruct (filter (isA c (sliceTypes c)) us) as [|u r] eqn:E; [cbn in N; congruence|].
  assert (I: In u (filter (isA c (sliceTypes c)) us)) by (rewrite E; left; reflexivity). apply filter_In in I. destruct I as [I1 I2].
  exists u. split; [exact I1|apply slice_decides, I2].
Qed.
Lemma wire_units a : wire a = map (unitIn a) (aunits a).
Proof. reflexivity. Qed.

Lemma last_shift (A : Type) (l : list A) : forall a b, last l b = last (b :: l) a.
Proof.
  induction l as [|x l IH]; intros a b; [reflexivity|]. change (last (b :: x :: l) a) with (last (x :: l) a). rewrite <- (IH a x), <- (IH b x). reflexivity.
Qed.

(** All the access units after [a]. *)
Lemma feed_rest c : forall aus a b0 s, inAU c a (aunits a) b0 s -> Forall (okAU c) (a :: aus) -> separated c (a :: aus) ->
  exists outs s', feed c (flat_map wire aus) s = Some (outs, s') /\
    Forall2 (fun x o => carries c x o /\ okey o = lastIsKey c x) (removelast (a :: aus)) outs /\
    pbytes (tmpFrame s') = pack (slices c (last aus a)).
Proof.
  induction aus as [|b aus IH]; intros a b0 s I OK SEP.
  - exists [], s. split; [reflexivity|]. split; [constructor|]. exact (u_bytes _ _ _ _ _ I).
  - inversion OK as [|? ? OA OB]; subst. inversion OB as [|? ? OB0 _]; subst. destruct SEP as [SE SEP].
    destruct OA as (A1 & A2 & A3 & A4). destruct OB0 as (B1 & B2 & B3 & B4).
    destruct (feed_next c a (aunits a) b0 b ltac:(tauto) (aunits b) [] s I A1 eq_refl ltac:(constructor) B2 B3 B1 B4) as (s1 & E1 & I1); [intros _; right; reflexivity|].
    destruct (IH b _ s1 I1 OB SEP) as (outs & s2 & E2 & F2 & P2).
    change (flat_map wire (b :: aus)) with (wire b ++ flat_map wire aus). rewrite feed_app, wire_units, E1, E2.
    eexists _, s2. split; [reflexivity|]. split.
    + change (removelast (a :: b :: aus)) with (a :: removelast (b :: aus)). cbn [app]. constructor; [|exact F2]. split.
      * unfold carries. cbn [opict pbytes ppts pdts pw ph]. split; [apply units_pack, A4|]. repeat split; reflexivity.
      * cbn [okey]. rewrite (mark_decided c _ _ (has_decider c _ A1)). reflexivity.
    + rewrite <- last_shift. exact P2.
Qed.

Lemma new_in c a j1 j2 : inAU c a [] false (newSegmenter j1 j2).
Proof. constructor; [reflexivity|intros N; exfalso; apply N; reflexivity|reflexivity|left; reflexivity]. Qed.

Lemma feed_stream c aus j1 j2 : Forall (okAU c) aus -> separated c aus ->
  exists outs s', feed c (flat_map wire aus) (newSegmenter j1 j2) = Some (outs, s') /\
    Forall2 (fun x o => carries c x o /\ okey o = lastIsKey c x) (removelast aus) outs /\
    unitsOf (pbytes (tmpFrame s')) = Some (match rev aus with [] => [] | a :: _ => slices c a end).
Proof.
  intros OK SEP. destruct aus as [|a aus]; [exists [], (newSegmenter j1 j2); split; [reflexivity|split; [constructor|reflexivity]]|].
  inversion OK as [|? ? OA _]; subst. destruct OA as (A1 & A2 & A3 & A4).
  destruct (feed_inside c a false (aunits a) [] (newSegmenter j1 j2) (new_in c a j1 j2) A2) as (s1 & E1 & I1).
  - destruct (aunits a) as [|u r]; [constructor|]. cbn [firstn]. constructor; [|constructor]. intros _. split; reflexivity.
  - exact A3.
  - exact A4.
  - destruct (feed_rest c aus a false s1 I1 OK SEP) as (outs & s2 & E2 & F2 & P2).
    change (flat_map wire (a :: aus)) with (wire a ++ flat_map wire aus). rewrite feed_app, wire_units, E1, E2. exists outs, s2. split; [reflexivity|]. split; [exact F2|].
    assert (L: rev (a :: aus) = last aus a :: tl (rev (a :: aus))).
    { clear. destruct (exists_last (l := a :: aus) ltac:(discriminate)) as (l & x & E). rewrite E, rev_app_distr. cbn. f_equal.
      revert a l E. induction aus as [|y aus IH]; intros a l E; [destruct l as [|? [|? ?]]; cbn in E; injection E as <-; try discriminate; reflexivity|].
      destruct l as [|z l]; [discriminate|]. injection E as -> E. rewrite (IH y l E). apply last_shift. }
    rewrite L, P2. apply units_pack. rewrite Forall_forall in OK. apply OK. apply in_rev. rewrite L. left. reflexivity.
Qed.
