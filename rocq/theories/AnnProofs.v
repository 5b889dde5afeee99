From Coq Require Import Ascii String ZArith List Bool Lia.
From Verif Require Import JsonModel CtlModel CtlSpec CtlProofs NamesModel SdpModel SdpSpec SdpProofs AnnModel AnnSpec.
Import ListNotations.
Local Open Scope list_scope.
Local Open Scope Z_scope.

Lemma linesAny_crlf ls : Forall isLine ls -> linesAny [] (crlfLines ls) = ls.
Proof.
  induction 1 as [|l ls (NE & N1 & N2) F IH]; [reflexivity|].
  unfold crlfLines; cbn [flat_map]; fold (crlfLines ls).
  rewrite <- app_assoc. cbn [app].
  rewrite linesAny_lf; [|right; reflexivity|exact N1|exact N2|exact NE].
  cbn [app linesAny]. change (Ascii.eqb LF "010" || Ascii.eqb LF "013") with true. cbn iota.
  rewrite IH. reflexivity.
Qed.

Lemma readLine_quiet d l : quiet l -> exists n, readLine d l = Some (mkDescr n (dMedia d)).
Proof.
  intros (_ & A & B & C & D). unfold readLine. destruct (after (txt "s=") l); [eexists; reflexivity|].
  rewrite A, B, C, D. destruct d; eexists; reflexivity.
Qed.
Lemma readLines_quiet ls : Forall quiet ls -> forall d, exists n, readLines d ls = Some (mkDescr n (dMedia d)).
Proof.
  induction 1 as [|l ls Q F IH]; intros d; cbn [readLines].
  - destruct d; eexists; reflexivity.
  - destruct (readLine_quiet d l Q) as (n & ->). destruct (IH (mkDescr n (dMedia d))) as (n' & E).
    exists n'. exact E.
Qed.

Lemma readMap_one pt c f : lacks " " c -> lacks "/" c ->
  readMap (unsignedText pt ++ lit " " ++ c ++ lit "/" ++ unsignedText f ++ [])
  = Some (pt mod 4294967296, c, f mod 4294967296, None).
Proof. intros A B. exact (readMap_ok pt c f 0 A B). Qed.

Lemma readMap_some pt c f ch : lacks " " c -> lacks "/" c ->
  readMap (unsignedText pt ++ lit " " ++ c ++ lit "/" ++ unsignedText f ++ lit "/" ++ unsignedText ch)
  = Some (pt mod 4294967296, c, f mod 4294967296, Some (ch mod 4294967296)).
Proof.
  intros N1 N2. unfold readMap. change (lit " ") with [" "%char]. change (lit "/") with ["/"%char]. cbn [app].
  rewrite fields_app by (apply unsigned_lacks; reflexivity).
  assert (NS : lacks " " (c ++ "/"%char :: unsignedText f ++ "/"%char :: unsignedText ch)).
  { apply lacks_app; [exact N1|]. intros [I|I]; [discriminate|]. revert I.
    apply lacks_app; [apply unsigned_lacks; reflexivity|].
    intros [I|I]; [discriminate|]. revert I. apply unsigned_lacks. reflexivity. }
  rewrite fields_one by exact NS. cbn [app].
  rewrite num_unsigned, fields_app by exact N2. cbn [app].
  rewrite fields_app, fields_one by (apply unsigned_lacks; reflexivity). cbn [app].
  rewrite !num_unsigned. reflexivity.
Qed.

(* The medium a track is read as. *)
Definition trackMedia (est : Z) (k : sink) (aux : option str) : media :=
  mkMedia (kMedium k) 0 (txt "RTP/AVP") (kPt k) (Some est)
    (if kPt k <? 96 then None
     else Some (kPt k, kName k, kFreq k, if kCh k =? 1 then None else Some (kCh k)))
    aux.

Definition goodSink (k : sink) : Prop :=
  lacks " " (kMedium k) /\ lacks LF (kMedium k) /\ lacks CR (kMedium k) /\
  lacks " " (kName k) /\ lacks "/" (kName k) /\ lacks LF (kName k) /\ lacks CR (kName k) /\
  small (kPt k) /\ small (kFreq k) /\ small (kCh k).
Definition goodAux (a : option str) : Prop := match a with Some r => lacks LF r /\ lacks CR r | None => True end.

Lemma read_track n est k aux d : goodSink k -> small est ->
  readLines d (sdpTrack n est k aux) = Some (mkDescr (dName d) (dMedia d ++ [trackMedia est k aux])).
Proof.
  intros (M1 & M2 & M3 & N1 & N2 & N3 & N4 & P & F & C) E. unfold sdpTrack. cbn [app readLines].
  rewrite readLine_media by exact M1.
  assert (S : forall d', readLine d' (lit "c=IN IP4 0.0.0.0") = Some d') by (intros []; reflexivity).
  rewrite S. clear S. rewrite readLine_bw. cbn [mMedium mPort mProto mPt mMap mFmtp mBandwidth].
  assert (K : forall d', readLine d' (lit "a=control:track" ++ unsignedText n) = Some d') by (intros []; reflexivity).
  assert (X : forall m0, mMap m0 = None -> mFmtp m0 = None ->
    readLines (mkDescr (dName d) (dMedia d ++ [m0])) (rtpmap k ++ match aux with Some r => [lit "a=fmtp:" ++ r] | None => [] end
      ++ [lit "a=control:track" ++ unsignedText n])
    = Some (mkDescr (dName d) (dMedia d ++ [mkMedia (mMedium m0) (mPort m0) (mProto m0) (mPt m0) (mBandwidth m0)
        (if kPt k <? 96 then None else Some (kPt k, kName k, kFreq k, if kCh k =? 1 then None else Some (kCh k))) aux]))).
  { intros m0 A B. rewrite readLines_app.
    assert (Y : readLines (mkDescr (dName d) (dMedia d ++ [m0])) (rtpmap k)
      = Some (mkDescr (dName d) (dMedia d ++ [mkMedia (mMedium m0) (mPort m0) (mProto m0) (mPt m0) (mBandwidth m0)
        (if kPt k <? 96 then None else Some (kPt k, kName k, kFreq k, if kCh k =? 1 then None else Some (kCh k))) (mFmtp m0)]))).
    { unfold rtpmap. destruct (kPt k <? 96).
      - cbn [readLines]. rewrite <- A. destruct m0; reflexivity.
      - cbn [readLines]. unfold small in *. destruct (kCh k =? 1).
        + erewrite readLine_map; [|apply readMap_one; [exact N1|exact N2]|reflexivity].
          rewrite !Z.mod_small by lia. reflexivity.
        + erewrite readLine_map; [|apply readMap_some; [exact N1|exact N2]|reflexivity].
          rewrite !Z.mod_small by lia. reflexivity. }
    rewrite Y. destruct aux as [r|]; cbn [app readLines].
    - rewrite readLine_fmtp, K. reflexivity.
    - rewrite K, B. reflexivity. }
  rewrite X by reflexivity. cbn [mMedium mPort mProto mPt mBandwidth]. unfold trackMedia, small in *.
  rewrite !Z.mod_small by lia. reflexivity.
Qed.

Lemma lacks_cons c x l : c <> x -> lacks c l -> lacks c (x :: l).
Proof. intros N L [I|I]; [congruence|exact (L I)]. Qed.
Ltac lk := repeat first
  [ assumption
  | apply lacks_app
  | apply unsigned_lacks; reflexivity
  | match goal with |- lacks _ (lit _) => lit_lacks end
  | match goal with |- lacks _ [] => intros [] end
  | match goal with |- context [if ?b then _ else _] => destruct b end ].

Lemma lit_ne a r : a <> EmptyString -> lit a ++ r <> [].
Proof. destruct a; [congruence|discriminate]. Qed.

Lemma track_lines n est k aux : goodSink k -> goodAux aux -> Forall isLine (sdpTrack n est k aux).
Proof.
  intros (M1 & M2 & M3 & N1 & N2 & N3 & N4 & _) A. unfold sdpTrack.
  assert (L : forall a r, a <> EmptyString -> lacks LF (lit a) -> lacks CR (lit a) -> lacks LF r -> lacks CR r -> isLine (lit a ++ r)).
  { intros a r E A1 A2 R1 R2. split; [apply lit_ne; exact E|]. split; apply lacks_app; assumption. }
  apply Forall_app; split; [|apply Forall_app; split; [|apply Forall_app; split]].
  - constructor; [|constructor; [|constructor; [|constructor]]].
    + apply L; [discriminate|lit_lacks|lit_lacks|lk|lk].
    + split; [discriminate|]. split; lit_lacks.
    + apply L; [discriminate|lit_lacks|lit_lacks|lk|lk].
  - unfold rtpmap. destruct (kPt k <? 96); constructor; [|constructor].
    apply L; [discriminate|lit_lacks|lit_lacks|lk|lk].
  - destruct aux as [r|]; constructor; [|constructor]. destruct A as (A1 & A2).
    apply L; [discriminate|lit_lacks|lit_lacks|exact A1|exact A2].
  - constructor; [|constructor]. apply L; [discriminate|lit_lacks|lit_lacks|lk|lk].
Qed.

Definition stream_small (s : stream) : Prop :=
  match s with Audio _ _ rate ch => small rate /\ small ch | _ => True end.

Lemma sink_good n s k : 0 <= n < 1000 -> stream_small s -> rtspSink (95 + n) s = Some k -> goodSink k.
Proof.
  intros N S E. assert (D : 0 <= 95 + n < 2000) by lia. revert D E. generalize (95 + n). clear N n. intros n N E.
  destruct s as [c f rate ch|c|]; cbn [rtspSink stream_small] in *.
  - injection E as <-. destruct S as (S1 & S2). unfold small in *.
    destruct c; cbn [acodec_eqb]; unfold adtsSink, simpleAudioSink, payload; cbn [acodec_eqb andb orb];
    repeat match goal with |- context [if ?b then _ else _] => destruct b end;
    unfold goodSink, mpaSink; cbn [kMedium kPt kName kFreq kCh getAudioCodecAsString];
    (repeat match goal with |- _ /\ _ => split end; first [unfold small; lia | lit_lacks]).
  - destruct c; cbn [videoSink] in E; try discriminate; injection E as <-;
    unfold goodSink; cbn [kMedium kPt kName kFreq kCh]; (repeat match goal with |- _ /\ _ => split end; first [unfold small; lia | lit_lacks]).
  - injection E as <-. unfold goodSink; cbn [kMedium kPt kName kFreq kCh]; (repeat match goal with |- _ /\ _ => split end; first [unfold small; lia | lit_lacks]).
Qed.

Lemma est_small s : small (estBitrate s).
Proof.
  unfold estBitrate, small. destruct s as [k f rate ch|k|]; try lia.
  destruct (acodec_eqb k AAC); [lia|].
  match goal with |- context [0 <? ?b] => destruct (0 <? b) end; [|lia].
  match goal with |- context [?x mod U32 / 1000] =>
    assert (0 <= x mod U32 < U32) by (apply Z.mod_pos_bound; reflexivity); set (y := x mod U32) in * end.
  unfold U32 in *. split; [apply Z.div_pos; lia|]. apply Z.div_lt_upper_bound; lia.
Qed.

(* The tracks with their places. *)
Inductive placed : Z -> list (stream * option str) -> list media -> Prop :=
| placed_nil n : placed n [] []
| placed_cons n s aux r k ms : rtspSink (95 + n) s = Some k -> placed (n + 1) r ms ->
    placed n ((s, aux) :: r) (trackMedia (estBitrate s) k aux :: ms).

Lemma read_tracks l : forall n d ms, 1 <= n -> n + Z.of_nat (List.length l) < 1000 ->
  Forall (fun x => stream_small (fst x)) l -> placed n l ms ->
  readLines d (sdpTracks n l) = Some (mkDescr (dName d) (dMedia d ++ ms)).
Proof.
  induction l as [|[s aux] l IH]; intros n d ms N B F P; inversion P as [n0 E1 E2 E3|n0 s0 aux0 r0 k0 ms0 RK P' E1 E2 E3]; subst.
  - cbn [sdpTracks readLines]. rewrite app_nil_r. destruct d; reflexivity.
  - cbn [sdpTracks]. inversion F; subst. cbn [List.length] in B. rewrite RK. rewrite readLines_app.
    rewrite read_track; [|apply (sink_good n s); [lia|assumption|assumption]|apply est_small].
    erewrite IH; [|lia|lia|assumption|eassumption]. cbn [dName dMedia]. rewrite <- app_assoc. reflexivity.
Qed.

Lemma lines_tracks l : forall n ms, 1 <= n -> n + Z.of_nat (List.length l) < 1000 ->
  Forall (fun x => stream_small (fst x) /\ goodAux (snd x)) l -> placed n l ms -> Forall isLine (sdpTracks n l).
Proof.
  induction l as [|[s aux] l IH]; intros n ms N B F P; inversion P as [n0 E1 E2 E3|n0 s0 aux0 r0 k0 ms0 RK P' E1 E2 E3]; subst; [constructor|].
  cbn [sdpTracks]. inversion F as [|x y (S & A) F']; subst. cbn [List.length fst snd] in *. rewrite RK.
  apply Forall_app; split.
  - apply track_lines; [apply (sink_good n s); [lia|exact S|exact RK]|exact A].
  - eapply IH; [lia|lia|exact F'|eassumption].
Qed.

Lemma read_session head l ms : Forall quiet head -> (List.length l <= 100)%nat ->
  Forall (fun x => stream_small (fst x) /\ goodAux (snd x)) l -> placed 1 l ms ->
  exists n, readDescr (sdpSession head l) = Some (mkDescr n ms).
Proof.
  intros Q B F P. unfold readDescr, sdpSession. rewrite linesAny_crlf.
  - rewrite readLines_app. destruct (readLines_quiet head Q (mkDescr None [])) as (n & ->). exists n.
    erewrite read_tracks; [| | | |exact P]; [reflexivity|lia|lia|].
    eapply Forall_impl; [|exact F]. intros x (A & _). exact A.
  - apply Forall_app; split.
    + eapply Forall_impl; [|exact Q]. intros x (A & _). exact A.
    + eapply lines_tracks; [| |exact F|exact P]; lia.
Qed.
