(* C59: the audio decoder. *)
From Coq Require Import ZArith List Bool Lia.
From Verif Require Import NamesModel AdcModel AdcSpec AdcProofs.
Import ListNotations.
Local Open Scope list_scope.
Local Open Scope Z_scope.

(* Whatever the frames of codecs the decoder knows and whatever the codec
   makes of them: every frame is answered, none crashes the decoder, keeps it
   for ever or makes it write outside the frame, and what is handed on has
   the stamps of the frame and the first block of samples decoded from it, by
   the decoder of its codec, channels and rate, converted to the settings of
   the decoder.  Restrictions (each needed, see below): sound settings that
   do not change, frames the library can decode, a converter that accepts its
   options. *)
Theorem C59_delivered_partial : forall alloc init fuel c l p rs,
  (forall o i, alloc o i = true) -> sound p -> Forall (plain p) rs ->
  Forall (fun r => clen (rframe r) <= Z.of_nat fuel) rs ->
  exists s xs, run alloc init fuel (adec0 c l p) (map Frame rs) = (s, map Some xs) /\
    Forall2 (answered p) rs xs.
Proof.
  intros alloc init fuel c l p rs HA Sp Pl Fu.
  destruct (run_all alloc init fuel (inv p) (fun r => plain p r /\ clen (rframe r) <= Z.of_nat fuel) (answered p))
    with (rs := rs) (s := adec0 c l p) as (s & xs & E & F & _).
  - intros s r I [P L]. destruct (process_spec alloc init HA p r Sp P fuel s I L) as (s1 & x & E & I1 & X & _ & _).
    exists s1, x. split; [exact E|]. split; [exact I1|]. split.
    + destruct X as [X|(d & X & St & [(g & i & D & H & _)|D])]; [left; exact X|right|right]; exists d;
      (split; [exact X|]); (split; [exact St|]); [left; exists g, i; split; assumption|right; exact D].
    + destruct X as [->|(d & -> & _)]; reflexivity.
  - apply inv0.
  - rewrite Forall_forall in *. intros r H. split; [apply Pl|apply Fu]; exact H.
  - exists s, xs. split; assumption.
Qed.
Print Assumptions C59_delivered_partial.

(* If opening works, every packet gives samples and the converter works,
   every frame is handed on with its samples. *)
Theorem C59_good_partial : forall alloc init fuel c l p rs,
  (forall o i, alloc o i = true) -> (forall o i, init o i = true) -> sound p -> Forall (plain p) rs ->
  Forall (fun r => clen (rframe r) <= Z.of_nat fuel) rs -> Forall good rs ->
  exists s xs, run alloc init fuel (adec0 c l p) (map Frame rs) = (s, map Some xs) /\
    Forall2 (fun r x => exists d g i, x = Delivered d /\ stamped (rframe r) d /\
      decodes (rcalls r) (clen (rframe r)) 0 (Found g) /\ holds p i (rframe r) g d) rs xs.
Proof.
  intros alloc init fuel c l p rs HA HI Sp Pl Fu Gd.
  destruct (run_all alloc init fuel (fun s => inv p s /\ fine s)
     (fun r => plain p r /\ clen (rframe r) <= Z.of_nat fuel /\ good r)
     (fun r x => exists d g i, x = Delivered d /\ stamped (rframe r) d /\
      decodes (rcalls r) (clen (rframe r)) 0 (Found g) /\ holds p i (rframe r) g d))
    with (rs := rs) (s := adec0 c l p) as (s & xs & E & F & _).
  - intros s r [I Fi] (P & L & [Go (g & Hg & Hw)]).
    destruct (process_spec alloc init HA p r Sp P fuel s I L) as (s1 & x & E & I1 & X & _ & G).
    destruct (G HI Fi Go) as [F1 K]. specialize (K g Hg Hw).
    exists s1, x. split; [exact E|]. split; [split; assumption|].
    destruct X as [->|(d & -> & St & [(g' & i & D & H & _)|[D _]])]; [congruence| |].
    + split; [|reflexivity]. exists d, g', i. auto.
    + pose proof (decodes_fun _ _ _ _ D _ Hg). discriminate.
  - split; [apply inv0|]. split; cbn; discriminate.
  - rewrite Forall_forall in *. intros r H. split; [apply Pl|split; [apply Fu|apply Gd]]; exact H.
  - exists s, xs. split; assumption.
Qed.
Print Assumptions C59_good_partial.

(* If moreover all frames have the same channels and rate and are decoded to
   the same format, samples are converted from exactly these. *)
Theorem C59_conversion_partial : forall alloc init fuel c l p u rs,
  (forall o i, alloc o i = true) -> sound p -> Forall (plain p) rs ->
  Forall (fun r => clen (rframe r) <= Z.of_nat fuel) rs -> Forall (uniform u) rs ->
  exists s xs, run alloc init fuel (adec0 c l p) (map Frame rs) = (s, map Some xs) /\
    Forall2 (fun r x => forall d, x = Delivered d -> dsrc d = None \/ exists g, holds p u (rframe r) g d) rs xs.
Proof.
  intros alloc init fuel c l p u rs HA Sp Pl Fu Un.
  destruct (run_all alloc init fuel (fun s => inv p s /\ uni u s)
     (fun r => plain p r /\ clen (rframe r) <= Z.of_nat fuel /\ uniform u r)
     (fun r x => forall d, x = Delivered d -> dsrc d = None \/ exists g, holds p u (rframe r) g d))
    with (rs := rs) (s := adec0 c l p) as (s & xs & E & F & _).
  - intros s r [I U] (P & L & V).
    destruct (process_spec alloc init HA p r Sp P fuel s I L) as (s1 & x & E & I1 & X & K & _).
    specialize (K u V U).
    exists s1, x. split; [exact E|]. split; [split; assumption|].
    destruct X as [->|(d & -> & St & [(g' & i & D & H & Q)|[D N]])];
    (split; [|reflexivity]); intros d' Q'; inversion Q'; subst d'.
    + right. exists g'. rewrite <- (proj2 K _ _ Q). exact H.
    + left. exact N.
  - split; [apply inv0|]. split; [left; reflexivity|intros; discriminate].
  - rewrite Forall_forall in *. intros r H. split; [apply Pl|split; [apply Fu|apply Un]]; exact H.
  - exists s, xs. split; assumption.
Qed.
Print Assumptions C59_conversion_partial.

(* -- What does not hold -------------------------------------------------- *)

(* The conversion that was set up first stays for ever: whatever frames and
   requests follow, all samples handed on are converted to [o] from [i]. *)
Lemma conv_kept : forall alloc init, (forall o i, alloc o i = true) -> forall o i fuel s f size calls n,
  conv s = Ready o i ->
  conv (fst (loop alloc init fuel s f size calls n)) = Ready o i /\
  forall d k o' i' h, snd (loop alloc init fuel s f size calls n) = Delivered d -> dsrc d = Some (k, o', i', h) -> o' = o /\ i' = i.
Proof.
  intros alloc init HA o i. induction fuel as [|fuel IH]; intros s f size calls n C; cbn [loop];
  (destruct (size <=? 0); [cbn; split; [exact C|intros d k o' i' h Q; injection Q as <-; discriminate]|]);
  destruct (ctx s) eqn:Ex; try (cbn; split; [exact C|discriminate]).
  destruct (calls n) as [|len [g|]]; [cbn; split; [exact C|discriminate]| |apply IH; exact C].
  assert (C1 : conv (checkSampleFormat alloc init s (gfmt g)) = Ready o i).
  { unfold checkSampleFormat. destruct (fmt_eqb (inFmt s) (gfmt g)); [exact C|].
    unfold inputConfig. rewrite HA. cbn. rewrite C. cbn. exact C. }
  unfold resample. rewrite C1.
  destruct (gwritten g <? 0); [split; [exact C1|discriminate]|].
  destruct (fits _ _ _); cbn; (split; [exact C1|]); [|discriminate].
  intros d k o' i' h Q R. injection Q as <-. cbn in R. injection R as _ <- <- _. auto.
Qed.

Lemma conv_process : forall alloc init, (forall o i, alloc o i = true) -> forall o i fuel s r,
  conv s = Ready o i ->
  conv (fst (process alloc init fuel s r)) = Ready o i /\
  forall d k o' i' h, snd (process alloc init fuel s r) = Delivered d -> dsrc d = Some (k, o', i', h) -> o' = o /\ i' = i.
Proof.
  intros alloc init HA o i fuel s r C. unfold process.
  destruct (reconfigure s (rframe r) (ropen r)) as [s1 b] eqn:E.
  assert (C1 : conv s1 = Ready o i).
  { unfold reconfigure in E. destruct (_ || _); [injection E as <- _; exact C|].
    destruct (_ && _); [injection E as <- _; exact C|].
    destruct (supported _); [|injection E as <- _; exact C].
    destruct (ctx s), (ropen r); injection E as <- _; exact C. }
  destruct b; try (split; [exact C1|discriminate]).
  destruct (clen (rframe r) <=? 0); [split; [exact C1|discriminate]|].
  apply conv_kept; assumption.
Qed.

Theorem C59_conversion_fixed_refuted : forall alloc init fuel o i,
  (forall o i, alloc o i = true) -> forall ops s, conv s = Ready o i ->
  forall d k o' i' h, In (Some (Delivered d)) (snd (run alloc init fuel s ops)) ->
  dsrc d = Some (k, o', i', h) -> o' = o /\ i' = i.
Proof.
  intros alloc init fuel o i HA. induction ops as [|[r|q] ops IH]; intros s C d k o' i' h; cbn [run].
  - intros [].
  - destruct (conv_process alloc init HA o i fuel s r C) as [C1 D1].
    destruct (process alloc init fuel s r) as [s1 x] eqn:E. cbn in C1, D1.
    destruct (fatal x) eqn:Fx; cbn.
    + intros [Q|[]]. injection Q as ->. discriminate.
    + destruct (run alloc init fuel s1 ops) as [s2 l] eqn:R. cbn. intros [Q|Q].
      * injection Q as ->. intro H. exact (D1 d k o' i' h eq_refl H).
      * apply (IH s1 C1 d k o' i' h). rewrite R. exact Q.
  - destruct (run alloc init fuel (fst (configEvent alloc init s q)) ops) as [s2 l] eqn:R. cbn. intros [Q|Q]; [discriminate|].
    apply (IH (fst (configEvent alloc init s q))).
    + unfold configEvent, inputConfig. destruct (_ && _); [exact C|]. rewrite HA. cbn. rewrite C. exact C.
    + rewrite R. exact Q.
Qed.
Print Assumptions C59_conversion_fixed_refuted.

(* ... while the requests are answered with success. *)
Theorem C59_request_refuted : forall alloc init s o i q,
  (forall o i, alloc o i = true) -> conv s = Ready o i ->
  snd (configEvent alloc init s q) = true /\ conv (fst (configEvent alloc init s q)) = Ready o i.
Proof.
  intros alloc init s o i q HA C. unfold configEvent, inputConfig.
  destruct (_ && _); [split; [reflexivity|exact C]|]. rewrite HA. cbn. rewrite C. cbn. auto.
Qed.
Print Assumptions C59_request_refuted.

(* A packet from which nothing is decoded repeats what was handed on before:
   same number of samples, same length, new stamps. *)
Theorem C59_repeat_refuted : forall alloc init fuel s r len,
  ctx s = Opened (ccodec (rframe r)) (cch (rframe r)) (crate (rframe r)) ->
  fCodec s = ccodec (rframe r) -> inCh s = cch (rframe r) -> inRate s = crate (rframe r) ->
  0 < cch (rframe r) -> 0 < crate (rframe r) -> 0 < clen (rframe r) ->
  rcalls r 0%nat = Took len None -> clen (rframe r) <= len -> (0 < fuel)%nat ->
  process alloc init fuel s r =
    (s, Delivered (mkD None (cpts (rframe r)) (corg (rframe r)) (cseq (rframe r)) (sSamples s) (sLen s))).
Proof.
  intros alloc init fuel s r len C F Ch R P1 P2 P3 K L Fu.
  unfold process, reconfigure. rewrite F, Ch, R, acodec_eqb_refl, !Z.eqb_refl.
  apply Z.leb_gt in P1, P2. rewrite P1, P2. cbn [orb andb].
  apply Z.leb_gt in P3 as P3'. rewrite P3'.
  destruct fuel as [|fuel]; [lia|]. cbn [loop]. rewrite P3', C, K.
  assert (E : clen (rframe r) - len <=? 0 = true) by (apply Z.leb_le; lia).
  destruct fuel; cbn [loop]; rewrite E; reflexivity.
Qed.
Print Assumptions C59_repeat_refuted.

(* A decoder that could not be opened once is not opened again: all frames of
   the same kind are refused, whatever the library would now answer. *)
Theorem C59_reopen_refuted : forall alloc init fuel s c ch rate rs,
  ctx s = Unopened -> fCodec s = c -> inCh s = ch -> inRate s = rate ->
  Forall (fun r => ccodec (rframe r) = c /\ cch (rframe r) = ch /\ crate (rframe r) = rate) rs ->
  run alloc init fuel s (map Frame rs) = (s, map (fun _ => Some Refused) rs).
Proof.
  intros alloc init fuel s c ch rate rs C F Ch R. induction rs as [|r rs IH]; intro H; [reflexivity|].
  inversion H as [|? ? (E1 & E2 & E3) H2]; subst.
  assert (P : process alloc init fuel s r = (s, Refused)).
  { unfold process, reconfigure. destruct (_ || _); [reflexivity|].
    rewrite E1, E2, E3, acodec_eqb_refl, !Z.eqb_refl. cbn [andb].
    destruct (clen (rframe r) <=? 0) eqn:E; [reflexivity|].
    destruct fuel; cbn [loop]; rewrite E, C; reflexivity. }
  cbn [map run]. rewrite P. cbn [fatal]. rewrite (IH H2). reflexivity.
Qed.
Print Assumptions C59_reopen_refuted.

(* A frame of a codec the decoder does not know is refused, and the next one
   like it is decoded as the codec before. *)
Theorem C59_unsupported_refuted : forall alloc init fuel s r o i c ch rate len g,
  ctx s = Opened c ch rate -> conv s = Ready o i -> inFmt s = gfmt g ->
  supported (ccodec (rframe r)) = false -> fCodec s <> ccodec (rframe r) ->
  0 < cch (rframe r) -> 0 < crate (rframe r) -> 0 < clen (rframe r) -> (0 < fuel)%nat ->
  rcalls r 0%nat = Took len (Some g) -> 0 <= gwritten g -> fits o (slot s) (gwritten g) = true ->
  exists s2 d, run alloc init fuel s [Frame r; Frame r] = (s2, [Some Refused; Some (Delivered d)]) /\
    dsrc d = Some (gnum g, o, i, Opened c ch rate).
Proof.
  intros alloc init fuel s r o i c ch rate len g C V Fm Su N P1 P2 P3 Fu K W Ft.
  cbn [run].
  assert (E1 : process alloc init fuel s r = (setIn s (ccodec (rframe r)) (cch (rframe r)) (crate (rframe r)), Refused)).
  { unfold process, reconfigure. apply Z.leb_gt in P1, P2. rewrite P1, P2, Su. cbn [orb].
    destruct (acodec_eqb (ccodec (rframe r)) (fCodec s)) eqn:E; [apply acodec_eqb_eq in E; congruence|]. reflexivity. }
  rewrite E1. cbn [fatal].
  set (s1 := setIn s _ _ _).
  assert (E2 : exists s2 d, process alloc init fuel s1 r = (s2, Delivered d) /\ dsrc d = Some (gnum g, o, i, Opened c ch rate)).
  { unfold s1, process, reconfigure. apply Z.leb_gt in P1, P2, P3. rewrite P1, P2. cbn [orb setIn fCodec inCh inRate].
    rewrite acodec_eqb_refl, !Z.eqb_refl. cbn [andb]. rewrite P3.
    destruct fuel as [|fuel]; [lia|]. cbn [loop setIn ctx]. rewrite P3, C, K.
    unfold checkSampleFormat. cbn [setIn inFmt]. rewrite Fm, fmt_eqb_refl. unfold resample. cbn [setIn conv slot]. rewrite V.
    apply Z.ltb_ge in W. rewrite W, Ft. eexists _, _. split; [reflexivity|]. cbn. rewrite C. reflexivity. }
  destruct E2 as (s2 & d & E2 & D). rewrite E2. cbn [fatal]. exists s2, d. split; [reflexivity|exact D].
Qed.
Print Assumptions C59_unsupported_refuted.

(* If there was none before, it crashes. *)
Theorem C59_unsupported_first_refuted : forall alloc init fuel c l p r,
  supported (ccodec (rframe r)) = false ->
  0 < cch (rframe r) -> 0 < crate (rframe r) -> 0 < clen (rframe r) ->
  snd (run alloc init fuel (adec0 c l p) [Frame r; Frame r]) = [Some Refused; Some Crash].
Proof.
  intros alloc init fuel c l p r Su P1 P2 P3. cbn [run].
  unfold process at 1. unfold reconfigure at 1.
  assert (Z0 : cch (rframe r) =? inCh (adec0 c l p) = false) by (apply Z.eqb_neq; cbn; lia).
  pose proof P3 as P3'. apply Z.leb_gt in P1, P2, P3'. rewrite P1, P2, Su, Z0. cbn [orb]. rewrite andb_false_r. cbn [andb fatal].
  unfold process, reconfigure. rewrite P1, P2. cbn [orb setIn fCodec inCh inRate]. rewrite acodec_eqb_refl, !Z.eqb_refl. cbn [andb].
  rewrite P3'. destruct fuel; cbn [loop]; rewrite P3'; reflexivity.
Qed.
Print Assumptions C59_unsupported_first_refuted.

(* A library that lacks one codec: the next frame crashes, be it of the same
   codec ... *)
Theorem C59_missing_codec_refuted : forall alloc init fuel s r r2 c ch rate,
  ctx s = Opened c ch rate -> fCodec s <> ccodec (rframe r) -> ropen r = NotFound ->
  In (ccodec (rframe r)) [PCMU; OPUS; AAC; MP3] -> In (ccodec (rframe r2)) [PCMU; OPUS; AAC; MP3] ->
  0 < cch (rframe r) -> 0 < crate (rframe r) ->
  0 < cch (rframe r2) -> 0 < crate (rframe r2) -> 0 < clen (rframe r2) ->
  snd (run alloc init fuel s [Frame r; Frame r2]) = [Some Refused; Some Crash].
Proof.
  intros alloc init fuel s r r2 c ch rate C N O S1 S2 P1 P2 P3 P4 P5. cbn [run].
  apply supported_in in S1, S2. apply Z.leb_gt in P1, P2, P3, P4. 
  unfold process at 1. unfold reconfigure at 1. rewrite P1, P2, S1, C, O. cbn [orb].
  destruct (acodec_eqb (ccodec (rframe r)) (fCodec s)) eqn:E; [apply acodec_eqb_eq in E; congruence|].
  cbn [andb fatal]. unfold process, reconfigure. rewrite P3, P4. cbn [orb].
  destruct (_ && _).
  - apply Z.leb_gt in P5. rewrite P5. destruct fuel; cbn [loop]; rewrite P5; reflexivity.
  - rewrite S2. reflexivity.
Qed.
Print Assumptions C59_missing_codec_refuted.

(* Samples of a format the decoder does not know crash it, if they are the
   first. *)
Theorem C59_unknown_format_refuted : forall alloc init fuel c l p r len g,
  In (ccodec (rframe r)) [PCMU; OPUS; AAC; MP3] -> ropen r = Opens ->
  0 < cch (rframe r) -> 0 < crate (rframe r) -> 0 < clen (rframe r) -> (0 < fuel)%nat ->
  rcalls r 0%nat = Took len (Some g) -> gfmt g = S_NONE ->
  snd (process alloc init fuel (adec0 c l p) r) = Crash.
Proof.
  intros alloc init fuel c l p r len g Su O P1 P2 P3 Fu K Fm.
  apply supported_in in Su. unfold process, reconfigure.
  assert (Z0 : cch (rframe r) =? inCh (adec0 c l p) = false) by (apply Z.eqb_neq; cbn; lia).
  apply Z.leb_gt in P1, P2, P3. rewrite P1, P2, Su, Z0, O, andb_false_r. cbn [orb andb adec0 ctx]. rewrite P3.
  destruct fuel as [|fuel]; [lia|]. cbn [loop setCtx ctx]. rewrite P3, K. unfold checkSampleFormat. rewrite Fm. reflexivity.
Qed.
Print Assumptions C59_unknown_format_refuted.

(* A codec that takes no bytes and gives no samples keeps the decoder for
   ever. *)
Theorem C59_hang_refuted : forall alloc init fuel s r c ch rate,
  ctx s = Opened c ch rate -> fCodec s = ccodec (rframe r) -> inCh s = cch (rframe r) -> inRate s = crate (rframe r) ->
  0 < cch (rframe r) -> 0 < crate (rframe r) -> 0 < clen (rframe r) ->
  (forall n, rcalls r n = Took 0 None) ->
  process alloc init fuel s r = (s, Running).
Proof.
  intros alloc init fuel s r c ch rate C F Ch R P1 P2 P3 K.
  unfold process, reconfigure. rewrite F, Ch, R, acodec_eqb_refl, !Z.eqb_refl.
  apply Z.leb_gt in P1, P2, P3. rewrite P1, P2, P3. cbn [orb andb].
  generalize 0%nat. induction fuel as [|fuel IH]; intro n; cbn [loop]; rewrite P3, C; [reflexivity|].
  rewrite K, Z.sub_0_r. apply IH.
Qed.
Print Assumptions C59_hang_refuted.

(* A request for wider samples between connection and the first frame: more
   than half a plane of samples overruns the frame. *)
Theorem C59_overflow_refuted : forall alloc init fuel c l ch rate r len g,
  (forall o i, alloc o i = true) -> (forall o i, init o i = true) ->
  In (ccodec (rframe r)) [PCMU; OPUS; AAC; MP3] -> ropen r = Opens ->
  0 < cch (rframe r) -> 0 < crate (rframe r) -> 0 < clen (rframe r) -> (0 < fuel)%nat ->
  rcalls r 0%nat = Took len (Some g) -> gfmt g <> S_NONE ->
  0 <= gwritten g -> 100 * rate / 1000 < 2 * gwritten g ->
  snd (run alloc init fuel (adec0 c l (mkPar S16P ch rate)) [Configure (mkReq (Some FLTP) None None); Frame r])
    = [None; Some Overflow].
Proof.
  intros alloc init fuel c l ch rate r len g HA HI Su O P1 P2 P3 Fu K Fm W Big.
  apply supported_in in Su. cbn [run]. unfold configEvent. cbn [adec0 inCh inRate Z.eqb andb fst setOut].
  unfold process, reconfigure.
  assert (Z0 : cch (rframe r) =? 0 = false) by (apply Z.eqb_neq; lia).
  apply Z.leb_gt in P1, P2, P3. rewrite P1, P2, Su, O. cbn [orb setOut adec0 inCh fCodec inRate ctx]. rewrite Z0, andb_false_r. cbn [andb]. rewrite P3.
  destruct fuel as [|fuel]; [lia|]. cbn [loop setCtx ctx]. rewrite P3, K. unfold checkSampleFormat.
  cbn [setCtx setIn setOut adec0 inFmt]. destruct (fmt_eqb S_NONE (gfmt g)) eqn:E; [apply fmt_eqb_eq in E; congruence|].
  unfold inputConfig. rewrite HA. cbn [setFmt conv setCtx setIn setOut out inFmt inCh inRate adec0]. rewrite HI. unfold resample.
  cbn [fst setConv conv slot setFmt setCtx setIn setOut adec0].
  apply Z.ltb_ge in W. rewrite W. unfold fits, planeSize, maxSamples. cbn [pfmt pch prate planar dflt qFmt qCh qRate bytesOf].
  assert (B : gwritten g * 4 <=? 2 * (100 * rate / 1000) = false) by (apply Z.leb_gt; lia).
  rewrite B, andb_false_r. reflexivity.
Qed.
Print Assumptions C59_overflow_refuted.

(* Settings with more than two channels overrun it with any samples. *)
Theorem C59_channels_refuted : forall alloc init fuel c l p r len g,
  (forall o i, alloc o i = true) -> (forall o i, init o i = true) ->
  (pfmt p = U8P \/ pfmt p = S16P \/ pfmt p = FLTP) -> 2 < pch p ->
  In (ccodec (rframe r)) [PCMU; OPUS; AAC; MP3] -> ropen r = Opens ->
  0 < cch (rframe r) -> 0 < crate (rframe r) -> 0 < clen (rframe r) -> (0 < fuel)%nat ->
  rcalls r 0%nat = Took len (Some g) -> gfmt g <> S_NONE -> 0 <= gwritten g ->
  snd (process alloc init fuel (adec0 c l p) r) = Overflow.
Proof.
  intros alloc init fuel c l p r len g HA HI Pf Pc Su O P1 P2 P3 Fu K Fm W.
  apply supported_in in Su. unfold process, reconfigure.
  assert (Z0 : cch (rframe r) =? inCh (adec0 c l p) = false) by (apply Z.eqb_neq; cbn; lia).
  apply Z.leb_gt in P1, P2, P3. rewrite P1, P2, Su, Z0, O, andb_false_r. cbn [orb andb adec0 ctx]. rewrite P3.
  destruct fuel as [|fuel]; [lia|]. cbn [loop setCtx ctx]. rewrite P3, K. unfold checkSampleFormat.
  cbn [setCtx setIn adec0 inFmt]. destruct (fmt_eqb S_NONE (gfmt g)) eqn:E; [apply fmt_eqb_eq in E; congruence|].
  unfold inputConfig. rewrite HA. cbn [setFmt conv setCtx setIn out inFmt inCh inRate adec0]. rewrite HI. unfold resample.
  cbn [fst setConv conv slot setFmt setCtx setIn adec0].
  apply Z.ltb_ge in W. rewrite W. unfold fits.
  assert (B : pch p <=? 2 = false) by (apply Z.leb_gt; lia). rewrite B.
  destruct Pf as [Q|[Q|Q]]; rewrite Q; reflexivity.
Qed.
Print Assumptions C59_channels_refuted.

(* A request the converter does not accept, once frames have come, leaves the
   decoder without a converter: the next samples of the same format crash
   it. *)
Theorem C59_bad_request_refuted : forall alloc init fuel s q r len g,
  ctx s = Opened (ccodec (rframe r)) (cch (rframe r)) (crate (rframe r)) ->
  fCodec s = ccodec (rframe r) -> inCh s = cch (rframe r) -> inRate s = crate (rframe r) ->
  0 < cch (rframe r) -> 0 < crate (rframe r) -> 0 < clen (rframe r) -> (0 < fuel)%nat ->
  rcalls r 0%nat = Took len (Some g) -> gfmt g = inFmt s ->
  (forall o, prate o < 0 -> forall i, alloc o i = false) ->
  (exists z, qRate q = Some z /\ z < 0) ->
  snd (run alloc init fuel s [Configure q; Frame r]) = [None; Some Crash].
Proof.
  intros alloc init fuel s q r len g C F Ch R P1 P2 P3 Fu K Fm HA (z & Q & Lz).
  cbn [run]. unfold configEvent, inputConfig. rewrite Ch.
  assert (Z0 : cch (rframe r) =? 0 = false) by (apply Z.eqb_neq; lia). rewrite Z0. cbn [andb setOut out].
  rewrite HA by (cbn; rewrite Q; exact Lz). cbn [fst].
  unfold process, reconfigure. cbn [setConv setOut fCodec inCh inRate].
  rewrite F, Ch, R, acodec_eqb_refl, !Z.eqb_refl. apply Z.leb_gt in P1, P2, P3. rewrite P1, P2. cbn [orb andb]. rewrite P3.
  destruct fuel as [|fuel]; [lia|]. cbn [loop setConv setOut ctx]. rewrite P3, C, K.
  unfold checkSampleFormat. cbn [setConv setOut inFmt]. rewrite Fm, fmt_eqb_refl. reflexivity.
Qed.
Print Assumptions C59_bad_request_refuted.

(* -- Concrete cases ------------------------------------------------------ *)

Definition ok2 (_ _ : params) : bool := true.
Definition std : params := mkPar FLTP 2 48000.
Definition aac (n : Z) : round :=
  mkRound (mkC AAC 2 44100 300 (1000 * n) (500 * n) n) Opens
          (fun k => match k with O => Took 100 None | _ => Took 200 (Some (mkGot n FLTP 1024)) end).
Definition skip : round :=
  mkRound (mkC AAC 2 44100 50 9000 900 9) Opens (fun _ => Took 50 None).
Definition ulaw : round :=
  mkRound (mkC PCMU 1 8000 160 7000 700 7) Opens (fun _ => Took 160 (Some (mkGot 70 S16 160))).

Example C59_aac_plain : forall n, plain std (aac n) /\ good (aac n) /\ uniform (mkPar FLTP 2 44100) (aac n).
Proof.
  intro n. split.
  - constructor; cbn; try lia; try tauto.
    + intros [|k] len Q; [injection Q as <-; lia|discriminate].
    + intros [|k] len g Q; [discriminate|injection Q as _ <-; discriminate].
    + intros [|k] len g Q; [discriminate|]. injection Q as _ <-. cbn. vm_compute. discriminate.
  - split.
    + constructor; [reflexivity|]. exists (mkGot n FLTP 1024). split; [|cbn; lia].
      eapply D_more; cbn; [lia|reflexivity|]. eapply D_got; cbn; [lia|reflexivity].
    + split; [reflexivity|]. split; [reflexivity|].
      intros [|k] len g Q; [discriminate|injection Q as _ <-; reflexivity].
Qed.

Example C59_sound_std : sound std.
Proof. split; [right; right; reflexivity|cbn; lia]. Qed.

(* Two packets, one that gives nothing (repeats the 1024 samples), and one of
   another codec, decoded to another format: it is still converted as if it
   had two channels of floating samples at 44100 Hz. *)
Example C59_history :
  snd (run ok2 ok2 400 (adec0 AC_NONE 0 std) [Frame (aac 1); Frame (aac 2); Frame skip; Frame ulaw]) =
  [Some (Delivered (mkD (Some (1, std, mkPar FLTP 2 44100, Opened AAC 2 44100)) 1000 500 1 1024 4096));
   Some (Delivered (mkD (Some (2, std, mkPar FLTP 2 44100, Opened AAC 2 44100)) 2000 1000 2 1024 4096));
   Some (Delivered (mkD None 9000 900 9 1024 4096));
   Some (Delivered (mkD (Some (70, std, mkPar FLTP 2 44100, Opened PCMU 1 8000)) 7000 700 7 160 640))].
Proof. reflexivity. Qed.

Example C59_unknown_codec_case : snd (run ok2 ok2 400 (adec0 AC_NONE 0 std)
   [Frame (aac 1); Frame (mkRound (mkC PCM 2 44100 300 1 1 1) Opens (rcalls (aac 3)));
    Frame (mkRound (mkC PCM 2 44100 300 1 1 1) Opens (rcalls (aac 3)))]) =
  [Some (Delivered (mkD (Some (1, std, mkPar FLTP 2 44100, Opened AAC 2 44100)) 1000 500 1 1024 4096));
   Some Refused;
   Some (Delivered (mkD (Some (3, std, mkPar FLTP 2 44100, Opened AAC 2 44100)) 1 1 1 1024 4096))].
Proof. reflexivity. Qed.

Example C59_missing_codec_case : snd (run ok2 ok2 400 (adec0 AC_NONE 0 std)
   [Frame (aac 1); Frame (mkRound (mkC OPUS 2 48000 300 1 1 1) NotFound (rcalls (aac 3))); Frame (aac 2)]) =
  [Some (Delivered (mkD (Some (1, std, mkPar FLTP 2 44100, Opened AAC 2 44100)) 1000 500 1 1024 4096));
   Some Refused; Some Crash].
Proof. reflexivity. Qed.

Example C59_reopen_case : snd (run ok2 ok2 400 (adec0 AC_NONE 0 std)
   [Frame (mkRound (rframe (aac 1)) OpenFails (rcalls (aac 1))); Frame (aac 2); Frame (aac 3)]) =
  [Some Refused; Some Refused; Some Refused].
Proof. reflexivity. Qed.

Example C59_overflow_case : snd (run ok2 ok2 400 (adec0 AC_NONE 0 (mkPar S16P 2 8000))
   [Configure (mkReq (Some FLTP) None None); Frame (aac 1)]) = [None; Some Overflow].
Proof. reflexivity. Qed.

Example C59_bad_request_case :
  snd (run (fun o _ => 0 <=? prate o) ok2 400 (adec0 AC_NONE 0 std)
    [Frame (aac 1); Configure (mkReq None None (Some (-1))); Frame (aac 2)]) =
  [Some (Delivered (mkD (Some (1, std, mkPar FLTP 2 44100, Opened AAC 2 44100)) 1000 500 1 1024 4096)); None; Some Crash].
Proof. reflexivity. Qed.
