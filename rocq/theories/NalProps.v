(** C24, C25 and C26: NAL units, decoder configurations and AAC headers. *)
From Verif Require Import Base Bytes NalModel NalSpec NalProofs.
Local Open Scope list_scope.
Local Open Scope Z_scope.

(** *** C24. *)
(** For every stream of access units that can be told apart, with any unit contents, both start code
    lengths or none, any times and whatever the buffers held: the pictures given out are, one by one,
    the access units except the last, which is still pending. Split by its four byte lengths, each holds
    exactly the slices of the access unit, in order, and carries its times and size. Missing: the units
    other than slices, and the slice types that the dasher does not know, are not in the sample (see
    [other_units_lost_refuted]). *)
Theorem samples_hold_the_slices_partial c aus junk junk' : Forall (okAU c) aus -> separated c aus ->
  exists outs s', feed c (flat_map wire aus) (newSegmenter junk junk') = Some (outs, s') /\
    Forall2 (carries c) (removelast aus) outs /\
    unitsOf (pbytes (tmpFrame s')) = Some (match rev aus with [] => [] | a :: _ => slices c a end).
Proof.
  intros OK SEP. destruct (feed_stream c aus junk junk' OK SEP) as (outs & s' & E & F & P). exists outs, s'. split; [exact E|]. split; [|exact P].
  clear -F. induction F as [|x o xs os [H _] F IH]; constructor; assumption.
Qed.

(** A picture is marked as a key picture exactly when the last of its units, delimiters and unknown units
    apart, is a key slice; so the mark is right for pictures whose last such unit is a slice and whose
    slices are all of the same kind. *)
Definition slicesLast (c : codec) (a : accessUnit) : Prop :=
  (exists u l, filter (decides c) (aunits a) = l ++ [u] /\ isA c (sliceTypes c) u = true) /\
  forall u v, In u (aunits a) -> In v (aunits a) -> isA c (sliceTypes c) u = true -> isA c (sliceTypes c) v = true ->
    isA c (keyTypes c) u = isA c (keyTypes c) v.
Theorem key_marks_partial c aus junk junk' outs s' : Forall (okAU c) aus -> separated c aus -> Forall (slicesLast c) aus ->
  feed c (flat_map wire aus) (newSegmenter junk junk') = Some (outs, s') ->
  Forall2 (fun a o => okey o = isKeyPicture c a) (removelast aus) outs.
Proof.
  intros OK SEP SL E. destruct (feed_stream c aus junk junk' OK SEP) as (outs0 & s0 & E0 & F & _). rewrite E in E0. injection E0 as <- <-.
  assert (SL': Forall (slicesLast c) (removelast aus)).
  { clear -SL. induction aus as [|a [|b aus] IH]; try constructor; inversion SL; subst; [assumption|]. apply IH. assumption. }
  clear -F SL'. induction F as [|a o xs os [_ H] F IH]; [constructor|]. inversion SL' as [|? ? [L U] SL2]; subst. constructor; [|apply IH, SL2].
  rewrite H. unfold lastIsKey, isKeyPicture. destruct L as (u & l & EL & US). rewrite EL, rev_app_distr. cbn [rev app].
  assert (IU: In u (aunits a)) by (assert (X: In u (filter (decides c) (aunits a))) by (rewrite EL; apply in_or_app; right; left; reflexivity); apply filter_In in X; apply X).
  symmetry. destruct (isA c (keyTypes c) u) eqn:K; [apply existsb_exists; exists u; split; assumption|].
  destruct (existsb (isA c (keyTypes c)) (aunits a)) eqn:X; [|reflexivity]. apply existsb_exists in X. destruct X as (v & IV & KV).
  rewrite <- K. rewrite <- (U v u IV IU); [symmetry; exact KV| |exact US]. rewrite kind_isSlice. rewrite kind_isKey in KV. destruct (kindU c v) as [[]|]; try discriminate. reflexivity.
Qed.

(** Without that: a key picture followed by supplemental information (the suffix SEI of HEVC) is not
    marked, so no segment can start with it. *)
Definition cam (us : list bytes) (t : Z) : accessUnit := mkAU (map (fun b => mkUnit Long b [0; 0; 0; 0]) us) t t 640 480.
Ltac okau := repeat first [split | constructor | intros ?]; try discriminate; try (cbn; lia); try (unfold isByte; lia); try (unfold len; cbn; lia); auto.
Theorem suffix_information_hides_key_picture_refuted : exists aus outs s' o,
  Forall (okAU HEVC) aus /\ separated HEVC aus /\ feed HEVC (flat_map wire aus) (newSegmenter 0 0) = Some (outs, s') /\
  In o outs /\ okey o = false /\ Forall (fun a => isKeyPicture HEVC a = true) aus.
Proof.
  set (key := [38; 1; 7]). set (sei := [80; 1; 5]).
  exists [cam [key; sei] 0; cam [key; sei] 40]. eexists _, _, _. split; [|split; [|split; [vm_compute; reflexivity|]]].
  - repeat apply Forall_cons; try apply Forall_nil; okau.
  - cbn. split; [right; reflexivity|exact Logic.I].
  - split; [left; reflexivity|]. split; [reflexivity|]. repeat constructor.
Qed.

(** Slices of types that the dasher does not know are lost: data partitions of H.264 (types 2 to 4) and
    the leading, sub-layer and broken-link pictures of HEVC (2 to 9, 16 to 18); and so is all
    supplemental information. *)
Theorem other_units_lost_refuted c a o u : carries c a o -> In u (aunits a) -> isA c (sliceTypes c) u = false ->
  (forall v, In v (aunits a) -> upayload v = upayload u -> v = u) ->
  exists l, unitsOf (pbytes (opict o)) = Some l /\ ~ In (upayload u) l.
Proof.
  intros (H & _) IU NS UN. exists (slices c a). split; [exact H|]. unfold slices. intros X. apply in_map_iff in X. destruct X as (v & EV & IV).
  apply filter_In in IV. destruct IV as [IV SV]. rewrite (UN v IV EV) in SV. congruence.
Qed.
Example lost_partition : exists aus outs s', Forall (okAU AVC) aus /\ separated AVC aus /\
  feed AVC (flat_map wire aus) (newSegmenter 0 0) = Some (outs, s') /\
  map (fun o => unitsOf (pbytes (opict o))) outs = [Some [[65; 9]]] /\
  flat_map aunits (removelast aus) = [mkUnit Long [65; 9] [0;0;0;0]; mkUnit Long [67; 8] [0;0;0;0]].
Proof.
  exists [cam [[65; 9]; [67; 8]] 0; cam [[65; 9]] 40]. eexists _, _. split; [repeat apply Forall_cons; try apply Forall_nil; okau|].
  split; [cbn; split; [right; reflexivity|exact Logic.I]|]. split; [vm_compute; reflexivity|]. split; reflexivity.
Qed.

(** A slice that does not fit is left out of a picture that is given out all the same. *)
Theorem big_slice_left_out_refuted x : Forall isByte x -> 10485760 < len x + 4 + 6 ->
  exists outs s', feed AVC (wire (cam [[65; 9]; 65 :: x] 0) ++ wire (cam [[65; 1]] 40)) (newSegmenter 0 0) = Some (outs, s') /\
    map (fun o => unitsOf (pbytes (opict o))) outs = [Some [[65; 9]]].
Proof.
  intros BX LX.
  change (wire (cam [[65; 9]; 65 :: x] 0) ++ wire (cam [[65; 1]] 40)) with
    ([wireU (mkUnit Long [65; 9] [0;0;0;0]) 0 0 640 480] ++ [wireU (mkUnit Long (65 :: x) [0;0;0;0]) 0 0 640 480] ++ [wireU (mkUnit Long [65; 1] [0;0;0;0]) 40 40 640 480]).
  rewrite feed_app.
  assert (E1: exists s1, feed AVC [wireU (mkUnit Long [65; 9] [0;0;0;0]) 0 0 640 480] (newSegmenter 0 0) = Some ([], s1) /\
     s1 = mkV (mkPict [0;0;0;2;65;9] 0 0 640 480) (mkPict [] 0 (-1) 0 0) false false [] [] [] []) by (eexists; split; [vm_compute; reflexivity|reflexivity]).
  destruct E1 as (s1 & E1 & ES1). rewrite E1, feed_app. cbn [feed]. unfold manageFrame.
  rewrite parse_unit. 2:{ split; [discriminate|]. split; [constructor; [unfold isByte; lia|exact BX]|]. split; [repeat constructor; unfold isByte; lia|]. split; [discriminate|]. intros Y. cbn in Y. discriminate. }
  change (kindU AVC (mkUnit Long (65 :: x) [0;0;0;0])) with (Some KNonKey). rewrite ES1. cbv zeta. cbn [isSlice upayload orb].
  change (later 0 0 (tmpFrame (mkV (mkPict [0;0;0;2;65;9] 0 0 640 480) (mkPict [] 0 (-1) 0 0) false false [] [] [] []))) with false. cbn [andb].
  unfold appendNalToFrame. cbn [setIntra save tmpFrame pbytes vFrame].
  replace (LENGTH_H264_FRAME <? len [0;0;0;2;65;9] + len (65 :: x) + 4) with true.
  2:{ symmetry. apply Z.ltb_lt. unfold LENGTH_H264_FRAME, len in *. cbn [length]. lia. }
  cbn [updateExtradata sps isEmpty orb]. eexists _, _. split; [vm_compute; reflexivity|reflexivity].
Qed.

(** An H.264 frame shorter than the start code found in its buffer makes the dasher read far outside. *)
Theorem short_frame_reads_outside_refuted : exists n s, (length (nraw n) <= 2)%nat /\ manageFrame AVC n s = None.
Proof. exists (mkNal [0; 0] [1; 65; 9] 0 0 640 480), (newSegmenter 0 0). split; [cbn; lia|reflexivity]. Qed.

(** A case: delimiters, parameter sets, SEI, several slices, both start codes, payloads that look like
    start codes and lengths. *)
Example camera_units : exists outs s',
  feed AVC (flat_map wire [mkAU [mkUnit Long [9; 240] []; mkUnit Long [103; 66; 0; 30; 1] []; mkUnit Short [104; 206] []; mkUnit Short [101; 0; 0; 1; 0] []; mkUnit Long [101; 0; 0; 0; 2] []] 5 5 640 480;
                           mkAU [mkUnit Bare [9; 240] [0; 0]; mkUnit Short [6; 1] []; mkUnit Short [65; 0; 0; 1; 9] []] 4 (-1) 640 480;
                           mkAU [mkUnit Short [65; 1; 1; 1] []] 90 80 640 480]) (newSegmenter 77 99) = Some (outs, s') /\
  map (fun o => (unitsOf (pbytes (opict o)), ppts (opict o), pdts (opict o), okey o)) outs =
    [(Some [[101; 0; 0; 1; 0]; [101; 0; 0; 0; 2]], 5, 5, true); (Some [[65; 0; 0; 1; 9]], 4, -1, false)] /\
  extradata s' = [1; 103; 66; 0; 255; 225; 0; 5; 103; 66; 0; 30; 1; 1; 0; 2; 104; 206].
Proof. eexists _, _. split; [vm_compute; reflexivity|]. split; reflexivity. Qed.

(** *** C25. *)
Lemma take_one x r : len x < 65536 -> takeSets 1 (be 2 (len x) ++ x ++ r) = Some ([x], r).
Proof.
  intros L. pose proof (len_nonneg x) as N. pose proof (be_length 2 (len x)) as L2. cbn [takeSets].
  assert (LL: length (be 2 (len x) ++ x ++ r) = (2 + length x + length r)%nat) by (rewrite !app_length, L2; lia).
  replace (rd (sub 0 2 (be 2 (len x) ++ x ++ r))) with (len x).
  2:{ unfold sub. cbn [skipn]. rewrite firstn_app_len by exact L2. symmetry. apply rd_be_id. change (256 ^ Z.of_nat 2) with 65536. lia. }
  replace (Z.to_nat (len x)) with (length x) by (unfold len; rewrite Nat2Z.id; reflexivity).
  destruct (Nat.ltb_spec (length (be 2 (len x) ++ x ++ r)) 2) as [X|_]; [lia|].
  destruct (Nat.ltb_spec (length (be 2 (len x) ++ x ++ r)) (2 + length x)) as [X|_]; [lia|].
  rewrite (sub_app 2 (length x)) by (try exact L2; reflexivity). rewrite app_assoc, skipn_app_len; [reflexivity|]. rewrite app_length, L2. reflexivity.
Qed.
(** The AVC configuration holds exactly the two parameter sets, and announces four byte lengths. Its
    profile fields are not those of the sequence parameter set (next theorem). *)
Theorem avc_config_holds_the_sets_partial s p : 3 <= len s < 65536 -> len p < 65536 ->
  exists e c, avcExtradata s p = Some e /\ parseAvcC e = Some c /\ cspss c = [s] /\ cppss c = [p] /\ clengthSize c = 4.
Proof.
  intros LS LP. unfold avcExtradata. destruct (Z.ltb_spec (len s) 3); [lia|].
  destruct s as [|a [|b [|d s]]]; try (unfold len in LS; cbn in LS; lia). set (sp := a :: b :: d :: s) in *.
  eexists _, _. split; [reflexivity|]. change (firstn 3 sp) with [a; b; d]. cbn [app].
  unfold parseAvcC. change ((252 + 3 <? 252) || (224 + 1 <? 224)) with false. cbv iota.
  change (Z.to_nat ((224 + 1) mod 32)) with 1%nat. rewrite take_one by lia. change (Z.to_nat 1) with 1%nat.
  pose proof (take_one p [] LP) as T. rewrite app_nil_r in T. rewrite T. split; [reflexivity|]. repeat split.
Qed.
(** The profile, compatibility and level announced are the header byte and the first two of the three
    bytes, so they are never those of the parameter set: no profile of H.264 equals the header. *)
Definition avcProfiles : list Z := [66; 77; 88; 100; 110; 122; 144; 244; 44; 83; 86; 118; 128; 134; 138; 139].
Theorem avc_profile_refuted s p e c : unitType AVC (nth 0 s 0) = 7 -> In (nth 1 s 0) avcProfiles -> 3 <= len s < 65536 -> len p < 65536 ->
  avcExtradata s p = Some e -> parseAvcC e = Some c -> (cprofile c, ccompat c, clevel c) <> spsProfile s.
Proof.
  intros T IN LS LP E P. unfold avcExtradata in E. destruct (Z.ltb_spec (len s) 3); [lia|].
  destruct s as [|a [|b [|d s]]]; try (unfold len in LS; cbn in LS; lia). set (sp := a :: b :: d :: s) in *.
  assert (E': e = [1] ++ [a; b; d] ++ [252 + 3] ++ [224 + 1] ++ be 2 (len sp) ++ sp ++ [1] ++ be 2 (len p) ++ p) by (apply (f_equal (fun o => match o with Some x => x | None => [] end)) in E; symmetry; exact E). clear E. subst e. cbn [app] in P.
  unfold parseAvcC in P. change ((252 + 3 <? 252) || (224 + 1 <? 224)) with false in P. cbv iota in P.
  change (Z.to_nat ((224 + 1) mod 32)) with 1%nat in P. rewrite take_one in P by lia. change (Z.to_nat 1) with 1%nat in P.
  pose proof (take_one p [] LP) as TT. rewrite app_nil_r in TT. rewrite TT in P.
  assert (C: cprofile c = a) by (apply (f_equal (option_map cprofile)) in P; cbn [option_map cprofile] in P; congruence). intros X. assert (A: cprofile c = nth 1 sp 0) by (unfold spsProfile in X; congruence).
  change (nth 1 sp 0) with b in *. change (nth 0 sp 0) with a in T. assert (ab: a = b) by congruence. rewrite ab in T. clear - T IN. cbn [unitType] in T.
  cbn [avcProfiles In] in IN. repeat (destruct IN as [<-|IN]; [vm_compute in T; discriminate T|]). exact IN.
Qed.

(** The HEVC configuration holds exactly the three parameter sets in their arrays. *)
Theorem hevc_config_holds_the_sets_partial v s p : len v < 65536 -> len s < 65536 -> len p < 65536 ->
  exists c, parseHvcC (hevcExtradata v s p) = Some c /\ harrays c = [(32, [v]); (33, [s]); (34, [p])] /\ hlengthSize c = 4 /\
    hprofile c = 1 /\ hlevel c = 93.
Proof.
  intros LV LS LP. unfold parseHvcC.
  set (t := [32] ++ be 2 1 ++ be 2 (len v) ++ v ++ [33] ++ be 2 1 ++ be 2 (len s) ++ s ++ [34] ++ be 2 1 ++ be 2 (len p) ++ p).
  change (hevcExtradata v s p) with ([1; 1; 96; 0; 0; 0; 144; 0; 0; 0; 0; 0; 93; 240; 0; 252; 248 + 1; 248; 248; 0; 0; 1 * 8 + 1 * 4 + 3; 3] ++ t).
  cbn [app length nth skipn]. change (Z.to_nat 3) with 3%nat.
  assert (A: takeArrays 3 t = Some [(32, [v]); (33, [s]); (34, [p])]).
  { unfold t. cbn [app]. change (be 2 1) with [0; 1]. cbn [app takeArrays]. change (Z.to_nat (0 * 256 + 1)) with 1%nat. rewrite take_one by exact LV. cbn [app takeArrays].
    change (Z.to_nat (0 * 256 + 1)) with 1%nat. rewrite take_one by exact LS. cbn [app takeArrays]. change (Z.to_nat (0 * 256 + 1)) with 1%nat.
    pose proof (take_one p [] LP) as T. rewrite app_nil_r in T. rewrite T. reflexivity. }
  rewrite A. cbn [Nat.ltb Nat.leb negb Z.eqb]. eexists. split; [reflexivity|]. repeat split.
Qed.
(** Profile and level are constants (Main, 3.1): wrong for every other stream. *)
Theorem hevc_level_refuted v s p c : len v < 65536 -> len s < 65536 -> len p < 65536 -> parseHvcC (hevcExtradata v s p) = Some c ->
  hevcSpsProfile s <> (1, 93) -> (hprofile c, hlevel c) <> hevcSpsProfile s.
Proof.
  intros LV LS LP P N. destruct (hevc_config_holds_the_sets_partial v s p LV LS LP) as (c' & E & _ & _ & E1 & E2). rewrite P in E. injection E as <-. rewrite E1, E2. congruence.
Qed.

(** *** The configuration follows the stream. *)
Definition sets := (bytes * bytes * bytes * bytes)%type.
Definition setsOf (s : vstate) : sets := (vps s, sps s, pps s, extradata s).
Definition addSet (c : codec) (q : sets) (x : Z * bytes) : sets :=
  let '(v, s, p, e) := q in
  let '(v, s, p) := if fst x =? spsType c then (v, snd x, p) else if fst x =? 32 then (snd x, s, p) else (v, s, snd x) in
  match c with
  | AVC => if isEmpty s || isEmpty p then (v, s, p, e) else (v, [], [], match avcExtradata s p with Some e' => e' | None => [] end)
  | HEVC => if isEmpty v || isEmpty s || isEmpty p then (v, s, p, e) else ([], [], [], hevcExtradata v s p)
  end.
Definition settled (c : codec) (s : vstate) : Prop :=
  match c with AVC => isEmpty (sps s) || isEmpty (pps s) = true | HEVC => isEmpty (vps s) || isEmpty (sps s) || isEmpty (pps s) = true end.
Lemma kind_vps c t : kindType c t = Some KVps -> c = HEVC /\ t = 32.
Proof.
  destruct c, t as [|q|q]; try (intros K; discriminate K); do 7 (try (destruct q as [q|q|]; try (intros K; discriminate K))); intros _; split; reflexivity.
Qed.
Lemma param_step c u pts dts w h s : okUnit c u -> spsOk s -> settled c s ->
  exists o s', manageFrame c (wireU u pts dts w h) s = Some (o, s') /\ spsOk s' /\ settled c s' /\
    setsOf s' = if isA c (paramTypes c) u then addSet c (setsOf s) (typeOf c u, upayload u) else setsOf s.
Proof.
  intros OK SO SE. unfold manageFrame. rewrite (parse_unit c u _ _ _ _ s OK). unfold isA. rewrite <- kind_param.
  assert (G: forall nf s1, spsOk s1 -> (forall k, kindU c u = Some k -> setsOf s1 = setsOf (save k (upayload u) s)) -> (kindU c u = None -> setsOf s1 = setsOf s) ->
    exists o s', match updateExtradata c s1 with None => None | Some s2 => Some (if nf && negb (isEmpty (pbytes (vFrame s2))) then Some (mkOut (vFrame s2) (previousIntra s2)) else None, s2) end = Some (o, s') /\
      spsOk s' /\ settled c s' /\
      setsOf s' = if match kindType c (typeOf c u) with Some (KVps | KSps | KPps) => true | _ => false end then addSet c (setsOf s) (typeOf c u, upayload u) else setsOf s).
  { intros nf s1 S1 H1 H2. destruct (extradata_step c s1 S1) as (s2 & E2 & _ & _ & _ & _ & S2). rewrite E2. eexists _, s2. split; [reflexivity|]. split; [exact S2|].
    fold (kindU c u). unfold updateExtradata in E2. unfold settled in *. pose proof (kind_sps c (typeOf c u)) as KS. fold (kindU c u) in KS.
    assert (NOP: setsOf s1 = setsOf s -> settled c s2 /\ setsOf s2 = setsOf s).
    { intros ES. assert (Q: vps s1 = vps s /\ sps s1 = sps s /\ pps s1 = pps s) by (unfold setsOf in ES; repeat split; congruence). destruct Q as (Q1 & Q2 & Q3).
      unfold settled. destruct c; rewrite ?Q1, ?Q2, ?Q3, SE in E2; assert (X: s1 = s2) by congruence; subst s2; rewrite ?Q1, ?Q2, ?Q3; split; assumption. }
    destruct (kindU c u) as [k|] eqn:K; [|apply NOP, H2; reflexivity]. specialize (H1 k eq_refl).
    destruct k; try (apply NOP; exact H1).
    - assert (T: c = HEVC /\ typeOf c u = 32).
      { apply kind_vps. exact K. }
      destruct T as [-> T]. assert (Q: vps s1 = upayload u /\ sps s1 = sps s /\ pps s1 = pps s /\ extradata s1 = extradata s) by (unfold setsOf in H1; cbn [save vps sps pps extradata] in H1; repeat split; congruence).
      destruct Q as (Q1 & Q2 & Q3 & Q4). unfold addSet, setsOf. cbn [fst snd]. rewrite <- KS, T. cbn [Z.eqb Pos.eqb]. rewrite Q1, Q2, Q3 in E2.
      destruct (isEmpty (upayload u) || isEmpty (sps s) || isEmpty (pps s)) eqn:EE.
      + assert (X: s1 = s2) by congruence. subst s2. rewrite Q1, Q2, Q3, Q4. split; [exact EE|reflexivity].
      + assert (X: s2 = mkV (tmpFrame s1) (vFrame s1) (currentIntra s1) (previousIntra s1) [] [] [] (hevcExtradata (upayload u) (sps s) (pps s))) by congruence. subst s2. split; reflexivity.
    - assert (Q: vps s1 = vps s /\ sps s1 = upayload u /\ pps s1 = pps s /\ extradata s1 = extradata s) by (unfold setsOf in H1; cbn [save vps sps pps extradata] in H1; repeat split; congruence).
      destruct Q as (Q1 & Q2 & Q3 & Q4). unfold addSet, setsOf. cbn [fst snd]. rewrite <- KS. destruct c; rewrite ?Q1, ?Q2, ?Q3 in E2.
      + destruct (isEmpty (upayload u) || isEmpty (pps s)) eqn:EE.
        * assert (X: s1 = s2) by congruence. subst s2. rewrite Q1, Q2, Q3, Q4. split; [exact EE|reflexivity].
        * destruct (avcExtradata (upayload u) (pps s)) as [e|]; [|discriminate]. assert (X: s2 = mkV (tmpFrame s1) (vFrame s1) (currentIntra s1) (previousIntra s1) (vps s) [] [] e) by congruence. subst s2. split; reflexivity.
      + destruct (isEmpty (vps s) || isEmpty (upayload u) || isEmpty (pps s)) eqn:EE.
        * assert (X: s1 = s2) by congruence. subst s2. rewrite Q1, Q2, Q3, Q4. split; [exact EE|reflexivity].
        * assert (X: s2 = mkV (tmpFrame s1) (vFrame s1) (currentIntra s1) (previousIntra s1) [] [] [] (hevcExtradata (vps s) (upayload u) (pps s))) by congruence. subst s2. split; reflexivity.
    - assert (Q: vps s1 = vps s /\ sps s1 = sps s /\ pps s1 = upayload u /\ extradata s1 = extradata s) by (unfold setsOf in H1; cbn [save vps sps pps extradata] in H1; repeat split; congruence).
      destruct Q as (Q1 & Q2 & Q3 & Q4).
      assert (T: typeOf c u =? 32 = false).
      { unfold kindU in K. apply Z.eqb_neq. intros T. rewrite T in K. destruct c; discriminate K. }
      unfold addSet, setsOf. cbn [fst snd]. rewrite <- KS, T. destruct c; rewrite ?Q1, ?Q2, ?Q3 in E2.
      + destruct (isEmpty (sps s) || isEmpty (upayload u)) eqn:EE.
        * assert (X: s1 = s2) by congruence. subst s2. rewrite Q1, Q2, Q3, Q4. split; [exact EE|reflexivity].
        * destruct (avcExtradata (sps s) (upayload u)) as [e|]; [|discriminate]. assert (X: s2 = mkV (tmpFrame s1) (vFrame s1) (currentIntra s1) (previousIntra s1) (vps s) [] [] e) by congruence. subst s2. split; reflexivity.
      + destruct (isEmpty (vps s) || isEmpty (sps s) || isEmpty (upayload u)) eqn:EE.
        * assert (X: s1 = s2) by congruence. subst s2. rewrite Q1, Q2, Q3, Q4. split; [exact EE|reflexivity].
        * assert (X: s2 = mkV (tmpFrame s1) (vFrame s1) (currentIntra s1) (previousIntra s1) [] [] [] (hevcExtradata (vps s) (sps s) (upayload u))) by congruence. subst s2. split; reflexivity. }
  destruct (kindU c u) as [k|] eqn:K.
  - cbv zeta. apply G; [| |discriminate].
    + pose proof (save_sps c u s OK SO k K) as X. destruct ((match k with KAud => true | _ => false end || later pts dts (tmpFrame s)) && full c (tmpFrame s)); destruct (isSlice k); try exact X; destruct (appendNalToFrame _ _ _ _ _ _); exact X.
    + intros k' K'. assert (k' = k) by congruence. subst k'.
      destruct ((match k with KAud => true | _ => false end || later pts dts (tmpFrame s)) && full c (tmpFrame s)); destruct (isSlice k); try reflexivity; destruct (appendNalToFrame _ _ _ _ _ _); reflexivity.
  - apply G; [exact SO|discriminate|reflexivity].
Qed.

Lemma params_units c a : forall us s, Forall (okUnit c) us -> spsOk s -> settled c s ->
  exists outs s', feed c (map (unitIn a) us) s = Some (outs, s') /\ spsOk s' /\ settled c s' /\ setsOf s' = fold_left (addSet c) (paramsOf c us) (setsOf s).
Proof.
  induction us as [|u us IH]; intros s OK SO SE; [exists [], s; repeat split; assumption|]. inversion OK as [|? ? OK0 OK1]; subst. cbn [map feed].
  destruct (param_step c u (apts a) (adts a) (aw a) (ah a) s OK0 SO SE) as (o & s1 & E1 & S1 & T1 & Q1). unfold unitIn at 1. rewrite E1.
  destruct (IH s1 OK1 S1 T1) as (outs & s2 & E2 & S2 & T2 & Q2). rewrite E2. eexists _, s2. do 3 (split; [try reflexivity; assumption|]).
  rewrite Q2, Q1. unfold paramsOf. cbn [filter]. destruct (isA c (paramTypes c) u); reflexivity.
Qed.
Lemma params_stream c : forall aus s, Forall (fun a => Forall (okUnit c) (aunits a)) aus -> spsOk s -> settled c s ->
  exists outs s', feed c (flat_map wire aus) s = Some (outs, s') /\ spsOk s' /\ settled c s' /\ setsOf s' = fold_left (addSet c) (paramsOf c (flat_map aunits aus)) (setsOf s).
Proof.
  induction aus as [|a aus IH]; intros s OK SO SE; [exists [], s; repeat split; assumption|]. inversion OK as [|? ? OK0 OK1]; subst.
  change (flat_map wire (a :: aus)) with (wire a ++ flat_map wire aus). rewrite feed_app, wire_units.
  destruct (params_units c a _ s OK0 SO SE) as (o1 & s1 & E1 & S1 & T1 & Q1). rewrite E1.
  destruct (IH s1 OK1 S1 T1) as (o2 & s2 & E2 & S2 & T2 & Q2). rewrite E2. eexists _, s2. do 3 (split; [try reflexivity; assumption|]).
  rewrite Q2, Q1. cbn [flat_map]. unfold paramsOf. rewrite filter_app, map_app, fold_left_app. reflexivity.
Qed.

Definition bare (v e : bytes) : sets := (v, [], [], e).

(** Whatever else the stream carries: if its parameter sets always come in pairs, sequence parameter set
    first, the configuration is that of the last pair. *)
Theorem avc_config_is_the_latest_pair_partial aus pairs s p junk junk' :
  Forall (fun a => Forall (okUnit AVC) (aunits a)) aus ->
  paramsOf AVC (flat_map aunits aus) = flat_map (fun x => [(7, fst x); (8, snd x)]) (pairs ++ [(s, p)]) ->
  Forall (fun x => 3 <= len (fst x) < 65536 /\ 1 <= len (snd x) < 65536) (pairs ++ [(s, p)]) ->
  exists outs st c, feed AVC (flat_map wire aus) (newSegmenter junk junk') = Some (outs, st) /\
    parseAvcC (extradata st) = Some c /\ cspss c = [s] /\ cppss c = [p].
Proof.
  intros OK PA B. destruct (params_stream AVC aus (newSegmenter junk junk') OK) as (outs & st & E & _ & _ & Q); [left; reflexivity|reflexivity|].
  exists outs, st. rewrite PA in Q.
  assert (NE: forall l, 1 <= len l -> isEmpty l = false) by (intros [|? ?] X; [cbn in X; lia|reflexivity]).
  assert (ST: forall v e x, 3 <= len (fst x) < 65536 /\ 1 <= len (snd x) < 65536 -> exists e', avcExtradata (fst x) (snd x) = Some e' /\
     fold_left (addSet AVC) [(7, fst x); (8, snd x)] (bare v e) = bare v e').
  { intros v e [s0 p0] [B1 B2]. cbn [fst snd] in *. destruct (avc_config_holds_the_sets_partial s0 p0 B1 ltac:(lia)) as (e' & c0 & E' & _). exists e'. split; [exact E'|].
    cbn [fold_left]. unfold bare. cbn [addSet fst snd spsType Z.eqb Pos.eqb isEmpty orb]. rewrite orb_true_r. cbn [addSet fst snd spsType Z.eqb Pos.eqb]. rewrite !NE by lia. cbn [orb]. rewrite E'. reflexivity. }
  assert (AL: forall l v e, Forall (fun x => 3 <= len (fst x) < 65536 /\ 1 <= len (snd x) < 65536) l -> exists e', fold_left (addSet AVC) (flat_map (fun x => [(7, fst x); (8, snd x)]) l) (bare v e) = bare v e').
  { induction l as [|x l IH]; intros v e F; [exists e; reflexivity|]. inversion F as [|? ? F0 F1]; subst. cbn [flat_map]. rewrite fold_left_app.
    destruct (ST v e x F0) as (e' & _ & ->). apply IH, F1. }
  rewrite flat_map_app, fold_left_app in Q. apply Forall_app in B. destruct B as [B1 B2]. inversion B2 as [|? ? B3 _]; subst.
  destruct (AL pairs [] [] B1) as (e1 & E1). change (setsOf (newSegmenter junk junk')) with (bare [] []) in Q. rewrite E1 in Q.
  destruct (ST [] e1 (s, p) B3) as (e2 & E2 & E3). cbn [flat_map] in Q. rewrite app_nil_r in Q. rewrite E3 in Q. cbn [fst snd] in E2, B3.
  destruct (avc_config_holds_the_sets_partial s p ltac:(lia) ltac:(lia)) as (e' & c & X1 & X2 & X3 & X4 & _). assert (e' = e2) by congruence. subst e'.
  exists c. split; [exact E|]. replace (extradata st) with e2 by (unfold setsOf, bare in Q; congruence). repeat split; assumption.
Qed.
Theorem hevc_config_is_the_latest_triple_partial aus triples v s p junk junk' :
  Forall (fun a => Forall (okUnit HEVC) (aunits a)) aus ->
  paramsOf HEVC (flat_map aunits aus) = flat_map (fun x => [(32, fst (fst x)); (33, snd (fst x)); (34, snd x)]) (triples ++ [(v, s, p)]) ->
  Forall (fun x => 1 <= len (fst (fst x)) < 65536 /\ 1 <= len (snd (fst x)) < 65536 /\ 1 <= len (snd x) < 65536) (triples ++ [(v, s, p)]) ->
  exists outs st c, feed HEVC (flat_map wire aus) (newSegmenter junk junk') = Some (outs, st) /\
    parseHvcC (extradata st) = Some c /\ harrays c = [(32, [v]); (33, [s]); (34, [p])].
Proof.
  intros OK PA B. destruct (params_stream HEVC aus (newSegmenter junk junk') OK) as (outs & st & E & _ & _ & Q); [left; reflexivity|reflexivity|].
  exists outs, st. rewrite PA in Q.
  assert (NE: forall l, 1 <= len l -> isEmpty l = false) by (intros [|? ?] X; [cbn in X; lia|reflexivity]).
  assert (ST: forall e x, 1 <= len (fst (fst x)) < 65536 /\ 1 <= len (snd (fst x)) < 65536 /\ 1 <= len (snd x) < 65536 ->
     fold_left (addSet HEVC) [(32, fst (fst x)); (33, snd (fst x)); (34, snd x)] (bare [] e) = bare [] (hevcExtradata (fst (fst x)) (snd (fst x)) (snd x))).
  { intros e [[v0 s0] p0] (B1 & B2 & B3). cbn [fst snd] in *. unfold fold_left, addSet, bare. cbn [fst snd spsType Z.eqb Pos.eqb]. pose proof (NE v0 ltac:(lia)) as N1. pose proof (NE s0 ltac:(lia)) as N2. pose proof (NE p0 ltac:(lia)) as N3.
    repeat (rewrite ?N1, ?N2, ?N3; cbn [isEmpty orb]). reflexivity. }
  assert (AL: forall l e, Forall (fun x => 1 <= len (fst (fst x)) < 65536 /\ 1 <= len (snd (fst x)) < 65536 /\ 1 <= len (snd x) < 65536) l ->
     exists e', fold_left (addSet HEVC) (flat_map (fun x => [(32, fst (fst x)); (33, snd (fst x)); (34, snd x)]) l) (bare [] e) = bare [] e').
  { induction l as [|x l IH]; intros e F; [exists e; reflexivity|]. inversion F as [|? ? F0 F1]; subst. cbn [flat_map]. rewrite fold_left_app, (ST e x F0). apply IH, F1. }
  rewrite flat_map_app, fold_left_app in Q. apply Forall_app in B. destruct B as [B1 B2]. inversion B2 as [|? ? B3 _]; subst.
  destruct (AL triples [] B1) as (e1 & E1). change (setsOf (newSegmenter junk junk')) with (bare [] []) in Q. rewrite E1 in Q.
  cbn [flat_map] in Q. rewrite app_nil_r, (ST e1 (v, s, p) B3) in Q. cbn [fst snd] in B3, Q.
  destruct (hevc_config_holds_the_sets_partial v s p ltac:(lia) ltac:(lia) ltac:(lia)) as (c & X1 & X2 & _).
  exists c. split; [exact E|]. replace (extradata st) with (hevcExtradata v s p) by (unfold setsOf, bare in Q; congruence). split; assumption.
Qed.
(** When a picture parameter set comes once on its own, the following pairs are mixed up: the
    configuration combines each new sequence parameter set with the picture parameter set of the previous pair. *)
Theorem stale_picture_set_refuted : exists aus outs st c,
  Forall (fun a => Forall (okUnit AVC) (aunits a)) aus /\ feed AVC (flat_map wire aus) (newSegmenter 0 0) = Some (outs, st) /\
  paramsOf AVC (flat_map aunits aus) = [(8, [104; 0]); (7, [103; 1; 1; 1]); (8, [104; 1]); (7, [103; 2; 2; 2]); (8, [104; 2])] /\
  parseAvcC (extradata st) = Some c /\ cspss c = [[103; 2; 2; 2]] /\ cppss c = [[104; 1]].
Proof.
  exists [cam [[104; 0]; [101; 5]] 0; cam [[103; 1; 1; 1]; [104; 1]; [101; 5]] 40; cam [[103; 2; 2; 2]; [104; 2]; [101; 5]] 80]. eexists _, _, _.
  split; [repeat apply Forall_cons; try apply Forall_nil; okau|]. split; [vm_compute; reflexivity|]. split; [reflexivity|]. split; [vm_compute; reflexivity|]. split; reflexivity.
Qed.

(** *** C26. *)
Lemma land_mod x n : Z.land x (Z.ones n) = x mod 2 ^ n \/ n < 0.
Proof. destruct (Z.lt_ge_cases n 0); [right; assumption|left; apply Z.land_ones; assumption]. Qed.
Lemma adts_fields p f pr ch low b4 b5 b6 tail : 0 <= p < 4 -> 0 <= f < 16 -> 0 <= pr < 2 -> 0 <= ch < 8 -> 0 <= low < 64 ->
  let h := adtsHeader p f pr ch low b4 b5 b6 ++ tail in
  adtsProfile h = p /\ adtsFreq h = f /\ adtsChannels h = Z.lor (ch / 4) (ch mod 4).
Proof.
  intros P F R C L h.
  assert (N: nth 2 h 0 = p * 64 + f * 4 + pr * 2 + ch / 4 /\ nth 3 h 0 = ch mod 4 * 64 + low) by (split; reflexivity).
  unfold adtsProfile, adtsFreq, adtsChannels. destruct N as [-> ->].
  change (Z.land (p * 64 + f * 4 + pr * 2 + ch / 4) 1) with (Z.land (p * 64 + f * 4 + pr * 2 + ch / 4) (Z.ones 1)).
  change (Z.land (Z.shiftr (ch mod 4 * 64 + low) 6) 3) with (Z.land (Z.shiftr (ch mod 4 * 64 + low) 6) (Z.ones 2)).
  rewrite !Z.land_ones by lia. rewrite Z.shiftr_div_pow2 by lia. change (2 ^ 6) with 64. change (2 ^ 2) with 4. change (2 ^ 1) with 2.
  split; [|split].
  - clear - P F R C. Z.to_euclidean_division_equations. lia.
  - clear - P F R C. Z.to_euclidean_division_equations. lia.
  - f_equal; clear - P F R C L; Z.to_euclidean_division_equations; lia.
Qed.
Lemma in_range a n : (0 <= a < Z.of_nat n) -> In a (map Z.of_nat (seq 0 n)).
Proof. intros H. apply in_map_iff. exists (Z.to_nat a). split; [lia|]. apply in_seq. lia. Qed.
Lemma asc_check : forallb (fun p => forallb (fun f => forallb (fun c =>
    let '(x, y, z) := ascDecode [extradata1 (p + 1) f; extradata2 f c] in (x =? p + 1) && (y =? f) && (z =? c))
  (map Z.of_nat (seq 0 8))) (map Z.of_nat (seq 0 16))) (map Z.of_nat (seq 0 4)) = true.
Proof. vm_compute. reflexivity. Qed.
Lemma asc_ok p f c : 0 <= p < 4 -> 0 <= f < 16 -> 0 <= c < 8 -> ascDecode [extradata1 (p + 1) f; extradata2 f c] = (p + 1, f, c).
Proof.
  intros P F C. pose proof asc_check as A. rewrite forallb_forall in A. specialize (A p (in_range p 4 P)). cbn beta in A.
  rewrite forallb_forall in A. specialize (A f (in_range f 16 F)). cbn beta in A. rewrite forallb_forall in A. specialize (A c (in_range c 8 C)). cbn beta in A.
  destruct (ascDecode [extradata1 (p + 1) f; extradata2 f c]) as [[x y] z]. apply andb_true_iff in A. destruct A as [A A3]. apply andb_true_iff in A. destruct A as [A1 A2].
  apply Z.eqb_eq in A1, A2, A3. congruence.
Qed.
Lemma lor_small c : 0 <= c < 8 -> 0 <= Z.lor (c / 4) (c mod 4) < 4 /\ (Z.lor (c / 4) (c mod 4) = c <-> c < 4).
Proof.
  intros C. assert (X: c = 0 \/ c = 1 \/ c = 2 \/ c = 3 \/ c = 4 \/ c = 5 \/ c = 6 \/ c = 7) by lia.
  repeat (destruct X as [->|X]; [vm_compute; split; [split; congruence|split; intros; (reflexivity || discriminate || congruence)]|]). subst. vm_compute. split; [split; congruence|split; intros; (reflexivity || discriminate || congruence)].
Qed.

(** The audio segmenter over time: frames received and, in between, initialisation segments written,
    which use up the configuration (DashAudioSegmenter.cpp 83-109). Refused frames change nothing. *)
Inductive audioOp := AudioFrame (f : bytes) | InitWritten.
Fixpoint audioHist (ops : list audioOp) (s : astate) : astate :=
  match ops with
  | [] => s
  | AudioFrame f :: r => audioHist r (match updateAudio f s with Some s' => s' | None => s end)
  | InitWritten :: r => audioHist r (mkA (aprofile s) (afreq s) (achan s) [])
  end.
Definition aConsistent (s : astate) : Prop :=
  aextra s = [] \/ aextra s = [extradata1 (aprofile s + 1) (afreq s); extradata2 (afreq s) (achan s)].
Lemma audio_step f s : aConsistent s -> match updateAudio f s with Some s' =>
   aConsistent s' /\ aextra s' = [extradata1 (adtsProfile f + 1) (adtsFreq f); extradata2 (adtsFreq f) (adtsChannels f)] | None => True end.
Proof.
  intros C. unfold updateAudio. destruct (len f <? 7); [exact Logic.I|]. destruct (negb _); [exact Logic.I|].
  destruct ((aprofile s =? adtsProfile f) && (afreq s =? adtsFreq f) && (achan s =? adtsChannels f) && negb (isEmpty (aextra s))) eqn:E.
  - repeat (apply andb_true_iff in E; destruct E as [E ?]). apply Z.eqb_eq in E, H0, H1. split; [exact C|]. destruct C as [C|C]; [rewrite C in H; discriminate|]. rewrite C. congruence.
  - split; [right|]; reflexivity.
Qed.
Lemma audio_hist_ok ops : forall s, aConsistent s -> aConsistent (audioHist ops s).
Proof.
  induction ops as [|[f|] ops IH]; intros s C; [exact C| |]; cbn [audioHist]; apply IH.
  - pose proof (audio_step f s C) as A. destruct (updateAudio f s); [apply A|exact C].
  - left. reflexivity.
Qed.

(** For every history and every ADTS header with up to three channels (configurations 0 to 3): the
    configuration decodes to the object type (profile + 1), frequency index and channel configuration of the header;
    and the one sent in session descriptions too. Missing: four and more channels (next theorem). *)
Theorem aac_config_decodes_partial ops p0 f0 c0 p f pr ch low b4 b5 b6 payload :
  0 <= p < 4 -> 0 <= f < 16 -> 0 <= pr < 2 -> 0 <= ch < 4 -> 0 <= low < 64 ->
  let h := adtsHeader p f pr ch low b4 b5 b6 ++ payload in
  (exists s, updateAudio h (audioHist ops (mkA p0 f0 c0 [])) = Some s /\ ascDecode (aextra s) = (p + 1, f, ch)) /\
  (exists e, updateConfigString h = Some e /\ ascDecode e = (p + 1, f, ch)).
Proof.
  intros P F R C L h. destruct (adts_fields p f pr ch low b4 b5 b6 payload P F R ltac:(lia) L) as (E1 & E2 & E3). fold h in E1, E2, E3.
  assert (CH: Z.lor (ch / 4) (ch mod 4) = ch) by (apply (lor_small ch ltac:(lia)); lia). rewrite CH in E3.
  assert (LN: len h <? 7 = false) by (apply Z.ltb_ge; unfold h; rewrite len_app; change (len (adtsHeader p f pr ch low b4 b5 b6)) with 7; pose proof (len_nonneg payload); lia).
  assert (HD: negb ((nth 0 h 0 =? 255) && (nth 1 h 0 =? 241)) = false) by reflexivity.
  split.
  - pose proof (audio_hist_ok ops (mkA p0 f0 c0 []) (or_introl eq_refl)) as I. pose proof (audio_step h _ I) as A.
    destruct (updateAudio h (audioHist ops (mkA p0 f0 c0 []))) as [s|] eqn:U.
    + exists s. split; [reflexivity|]. destruct A as [_ ->]. rewrite E1, E2, E3. apply asc_ok; lia.
    + exfalso. unfold updateAudio in U. rewrite LN, HD in U. destruct (_ && _ && _ && _) in U; discriminate.
  - unfold updateConfigString. rewrite LN, HD. eexists. split; [reflexivity|]. rewrite E1, E2, E3. apply asc_ok; lia.
Qed.
(** With four or more channels the announced number is always wrong: the high bit of the channel
    configuration is put at the lowest position. *)
Theorem aac_channels_refuted ops p0 f0 c0 p f pr ch low b4 b5 b6 payload s :
  0 <= p < 4 -> 0 <= f < 16 -> 0 <= pr < 2 -> 4 <= ch < 8 -> 0 <= low < 64 ->
  updateAudio (adtsHeader p f pr ch low b4 b5 b6 ++ payload) (audioHist ops (mkA p0 f0 c0 [])) = Some s -> snd (ascDecode (aextra s)) <> ch.
Proof.
  intros P F R C L U. pose proof (audio_hist_ok ops (mkA p0 f0 c0 []) (or_introl eq_refl)) as I. pose proof (audio_step (adtsHeader p f pr ch low b4 b5 b6 ++ payload) _ I) as A.
  rewrite U in A. destruct A as [_ ->]. destruct (adts_fields p f pr ch low b4 b5 b6 payload P F R ltac:(lia) L) as (-> & -> & ->).
  destruct (lor_small ch ltac:(lia)) as [B1 B2]. rewrite asc_ok by lia. cbn [snd]. intros X. apply B2 in X. lia.
Qed.
Example stereo_header : forall s, aextra s = [] -> exists s', updateAudio (adtsHeader 1 3 0 2 17 1 2 3 ++ [9; 9; 9]) s = Some s' /\ aextra s' = [17; 144].
Proof. intros s E. unfold updateAudio. rewrite E. cbn [isEmpty negb]. rewrite andb_false_r. eexists. split; [vm_compute; reflexivity|reflexivity]. Qed.

Print Assumptions samples_hold_the_slices_partial.
Print Assumptions key_marks_partial.
Print Assumptions suffix_information_hides_key_picture_refuted.
Print Assumptions other_units_lost_refuted.
Print Assumptions big_slice_left_out_refuted.
Print Assumptions short_frame_reads_outside_refuted.
Print Assumptions avc_config_holds_the_sets_partial.
Print Assumptions avc_profile_refuted.
Print Assumptions hevc_config_holds_the_sets_partial.
Print Assumptions hevc_level_refuted.
Print Assumptions avc_config_is_the_latest_pair_partial.
Print Assumptions hevc_config_is_the_latest_triple_partial.
Print Assumptions stale_picture_set_refuted.
Print Assumptions aac_config_decodes_partial.
Print Assumptions aac_channels_refuted.
