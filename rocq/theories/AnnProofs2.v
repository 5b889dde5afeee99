From Coq Require Import Ascii String ZArith List Bool Lia.
From Verif Require Import JsonModel CtlModel CtlProofs NamesModel SdpModel SdpSpec SdpProofs AnnModel AnnSpec AnnProofs AnnRecv.
Import ListNotations.
Local Open Scope list_scope.
Local Open Scope Z_scope.

Lemma offered_sink dyn s : offered s -> exists k, rtspSink dyn s = Some k.
Proof.
  destruct s as [k f r c|k|]; cbn [offered rtspSink]; intros O; try (eexists; reflexivity).
  destruct O as [->|[->| ->]]; eexists; reflexivity.
Qed.
Lemma offered_small s : offered s -> stream_small s.
Proof. destruct s; cbn; tauto. Qed.

Lemma offered_placed l : forall n, Forall (fun x => offered (fst x)) l -> exists ms, placed n l ms.
Proof.
  induction l as [|[s aux] l IH]; intros n F.
  - exists []. constructor.
  - inversion F; subst. destruct (offered_sink (95 + n) s H1) as (k & E). destruct (IH (n + 1) H2) as (ms & P).
    eexists. econstructor; eassumption.
Qed.

Lemma track_told est k aux : told (trackMedia est k aux) =
  if kPt k <? 96 then
    match lookup (kPt k) registered with
    | Some (n, f, c) => Some (mkHeard (kMedium k) (kPt k) n f c) | None => None end
  else Some (mkHeard (kMedium k) (kPt k) (map capital (kName k)) (kFreq k) (if kCh k =? 1 then 1 else kCh k)).
Proof.
  unfold told, meaning, trackMedia. cbn [mMap mPt mMedium]. destruct (kPt k <? 96); [reflexivity|].
  rewrite Z.eqb_refl. destruct (kCh k =? 1); reflexivity.
Qed.

Lemma one_if c : (if c =? 1 then 1 else c) = c.
Proof. destruct (c =? 1) eqn:E; [apply Z.eqb_eq in E; lia|reflexivity]. Qed.

Ltac dynbig dyn := replace (dyn <? 96) with false by (symmetry; apply Z.ltb_ge; lia).
Ltac dynne dyn := replace (dyn =? 0) with false by (symmetry; apply Z.eqb_neq; lia).

Lemma streq_ok a b : streq a b = true <-> a = b.
Proof. unfold streq. destruct (list_eq_dec ascii_dec a b); split; congruence. Qed.

(* What the receiver makes of each stream. *)
Definition made (s : stream) : option info :=
  match s with
  | Audio AAC _ r c => Some (IAudio AAC S16 r c)
  | Audio OPUS _ r c => Some (IAudio OPUS S16 r c)
  | Audio PCM f r c => if fmt_eqb f S16 then None else Some (IAudio PCM S_NONE r c)
  | Audio PCMU _ r c => if (r =? 8000) && (c =? 1) then Some (IAudio G711 U8 r c) else Some (IAudio PCMU S_NONE r c)
  | Audio G711 _ r c => if (r =? 8000) && (c =? 1) then Some (IAudio G711 U8 r c) else None
  | Audio _ _ _ _ => None
  | Video H264 => Some (IVideo H264 true true)
  | Video H265 => Some (IVideo H265 true true)
  | Video VP8 => Some (IVideo VP8 false false)
  | _ => None
  end.

Lemma sink_made dyn s k est aux : 96 <= dyn -> rtspSink dyn s = Some k ->
  exists h, told (trackMedia est k aux) = Some h /\ createStreamInfo h = made s.
Proof.
  intros D E. rewrite track_told. destruct s as [c f r ch|c|]; cbn [rtspSink] in E.
  - assert (E' : (if acodec_eqb c AAC then adtsSink dyn r ch else simpleAudioSink dyn c f r ch) = k) by congruence. clear E.
    subst k. unfold adtsSink, simpleAudioSink, payload, mpaSink.
    destruct c; cbn [acodec_eqb andb orb made]; cbn [kMedium kPt kName kFreq kCh].
    + dynbig dyn. eexists; split; [reflexivity|]. unfold createStreamInfo; cbn [hMedium hPt hName hFreq hCh]. dynne dyn. reflexivity.
    + destruct (r =? 8000) eqn:R; cbn [andb]; [destruct (ch =? 1) eqn:C; cbn [andb]|]; cbn [kMedium kPt kName kFreq kCh].
      * apply Z.eqb_eq in R. apply Z.eqb_eq in C. subst. eexists; split; reflexivity.
      * dynbig dyn. eexists; split; [reflexivity|]. unfold createStreamInfo; cbn [hMedium hPt hName hFreq hCh]. dynne dyn. reflexivity.
      * dynbig dyn. eexists; split; [reflexivity|]. unfold createStreamInfo; cbn [hMedium hPt hName hFreq hCh]. dynne dyn. reflexivity.
    + destruct (r =? 8000) eqn:R; cbn [andb]; [destruct (ch =? 1) eqn:C; cbn [andb]|]; cbn [kMedium kPt kName kFreq kCh].
      * apply Z.eqb_eq in R. apply Z.eqb_eq in C. subst. eexists; split; reflexivity.
      * dynbig dyn. rewrite C. eexists; split; [reflexivity|]. unfold createStreamInfo; cbn [hMedium hPt hName hFreq hCh]. dynne dyn. reflexivity.
      * dynbig dyn. rewrite one_if. eexists; split; [reflexivity|]. unfold createStreamInfo; cbn [hMedium hPt hName hFreq hCh]. dynne dyn. reflexivity.
    + dynbig dyn. rewrite one_if. eexists; split; [reflexivity|]. unfold createStreamInfo; cbn [hMedium hPt hName hFreq hCh]. dynne dyn. reflexivity.
    + destruct (fmt_eqb f S16); cbn [kMedium kPt kName kFreq kCh].
      * destruct (r =? 44100) eqn:R; [destruct (ch =? 2) eqn:C; [|destruct (ch =? 1) eqn:C1]|].
        -- eexists; split; reflexivity.
        -- eexists; split; reflexivity.
        -- dynbig dyn. eexists; split; [reflexivity|]. unfold createStreamInfo; cbn [hMedium hPt hName hFreq hCh]. dynne dyn. reflexivity.
        -- dynbig dyn. eexists; split; [reflexivity|]. unfold createStreamInfo; cbn [hMedium hPt hName hFreq hCh]. dynne dyn. reflexivity.
      * dynbig dyn. rewrite one_if. eexists; split; [reflexivity|]. unfold createStreamInfo; cbn [hMedium hPt hName hFreq hCh]. dynne dyn. reflexivity.
    + dynbig dyn. rewrite one_if. eexists; split; [reflexivity|]. unfold createStreamInfo; cbn [hMedium hPt hName hFreq hCh]. dynne dyn. reflexivity.
    + eexists; split; reflexivity.
  - destruct c; cbn [videoSink] in E; try discriminate;
    (match type of E with Some ?x = _ => assert (E' : x = k) by congruence; clear E; subst k end);
    cbn [kMedium kPt kName kFreq kCh]; dynbig dyn; (eexists; split; [reflexivity|]); reflexivity.
  - injection E as <-. eexists; split; reflexivity.
Qed.

Lemma made_faithful s : (exists i, made s = Some i /\ faithful s i) <-> carried s.
Proof.
  destruct s as [c f r ch|c|]; [destruct c|destruct c|]; cbn [made carried faithful];
    try (split; [intros (i & E & F); discriminate|intros []]);
    try (split; [exact (fun _ => I)|intros _; eexists; split; [reflexivity|cbn; auto]]).
  - destruct ((r =? 8000) && (ch =? 1)) eqn:B.
    + apply andb_prop in B as (B1 & B2). apply Z.eqb_eq in B1, B2. split; [auto|].
      intros _. eexists; split; [reflexivity|cbn; auto].
    + split; [intros (i & E & _); discriminate|]. intros (-> & ->). discriminate.
  - destruct ((r =? 8000) && (ch =? 1)) eqn:B.
    + apply andb_prop in B as (B1 & B2). apply Z.eqb_eq in B1, B2.
      split; [intros (i & E & F); injection E as <-; destruct F as (F & _); discriminate|tauto].
    + split; [intros _ (-> & ->); discriminate|]. intros _. eexists; split; [reflexivity|cbn; auto].
  - destruct f; cbn [fmt_eqb];
      try (split; [intros _; discriminate|intros _; eexists; split; [reflexivity|cbn; auto]]).
    split; [intros (i & E & _); discriminate|congruence].
Qed.

Lemma track_received dyn s k est aux : 96 <= dyn -> rtspSink dyn s = Some k ->
  (received s (trackMedia est k aux) <-> carried s).
Proof.
  intros D E. destruct (sink_made dyn s k est aux D E) as (h & T & M). rewrite <- made_faithful. unfold received. split.
  - intros (h' & i & T' & C & F). exists i. split; [|exact F]. congruence.
  - intros (i & C & F). exists h, i. repeat split; [exact T| |exact F]. congruence.
Qed.

Lemma placed_received l : forall n ms, 1 <= n -> placed n l ms ->
  Forall2 (fun x m => (received (fst x) m <-> carried (fst x)) /\ mFmtp m = snd x /\ mBandwidth m = Some (estBitrate (fst x))) l ms.
Proof.
  induction l as [|[s aux] l IH]; intros n ms N P; inversion P as [n0 E1 E2 E3|n0 s0 aux0 r0 k0 ms0 RK P' E1 E2 E3]; subst; constructor.
  - cbn [fst snd]. split; [|split; reflexivity]. apply (track_received (95 + n)); [lia|exact RK].
  - apply (IH (n + 1)); [lia|exact P'].
Qed.

Lemma sink_type dyn s k : rtspSink dyn s = Some k -> kPt k = dyn \/ In (kPt k) [0; 10; 11; 14; 33].
Proof.
  intros E. destruct s as [c f r ch|c|]; cbn [rtspSink] in E.
  - injection E as <-. unfold adtsSink, simpleAudioSink, payload, mpaSink.
    destruct c; cbn [acodec_eqb andb orb];
    repeat match goal with |- context [if ?b then _ else _] => destruct b end; cbn [kPt]; cbn [In]; auto 10.
  - destruct c; cbn [videoSink] in E; try discriminate; injection E as <-; left; reflexivity.
  - injection E as <-. right. cbn. auto 10.
Qed.

Lemma placed_types l : forall n ms i m, placed n l ms -> nth_error ms i = Some m ->
  mPt m = 95 + n + Z.of_nat i \/ In (mPt m) [0; 10; 11; 14; 33].
Proof.
  induction l as [|[s aux] l IH]; intros n ms i m P E; inversion P as [n0 E1 E2 E3|n0 s0 aux0 r0 k0 ms0 RK P' E1 E2 E3]; subst.
  - destruct i; discriminate.
  - destruct i as [|i]; cbn [nth_error] in E.
    + injection E as <-. cbn [trackMedia mPt]. destruct (sink_type _ _ _ RK) as [->|I]; [left; lia|right; exact I].
    + destruct (IH _ _ _ _ P' E) as [->|I]; [left; lia|right; exact I].
Qed.

Lemma static_right dyn s k : 96 <= dyn -> rtspSink dyn s = Some k -> kPt k < 96 ->
  exists n, lookup (kPt k) registered = Some (n, kFreq k, kCh k) /\ properName s = Some n.
Proof.
  intros D E L. destruct s as [c f r ch|c|]; cbn [rtspSink] in E.
  - assert (E' : (if acodec_eqb c AAC then adtsSink dyn r ch else simpleAudioSink dyn c f r ch) = k) by congruence. clear E.
    subst k. revert L. unfold adtsSink, simpleAudioSink, payload, mpaSink.
    destruct c; cbn [acodec_eqb andb orb]; cbn [kPt kFreq kCh]; intros L; try lia.
    + destruct (r =? 8000) eqn:R; cbn [andb] in *; [destruct (ch =? 1) eqn:C; cbn [andb] in *|]; cbn [kPt kFreq kCh] in *; try lia.
      apply Z.eqb_eq in R, C. subst. eexists; split; reflexivity.
    + destruct (r =? 8000) eqn:R; cbn [andb] in *; [destruct (ch =? 1) eqn:C; cbn [andb] in *|]; cbn [kPt kFreq kCh] in *; try lia.
      apply Z.eqb_eq in R, C. subst. eexists; split; reflexivity.
    + destruct (fmt_eqb f S16) eqn:F; cbn [kPt kFreq kCh] in *; [|lia].
      destruct (r =? 44100) eqn:R; [destruct (ch =? 2) eqn:C; [|destruct (ch =? 1) eqn:C1]|]; try lia.
      * apply Z.eqb_eq in R, C. subst. eexists; split; [reflexivity|]. cbn [properName]. rewrite F. reflexivity.
      * apply Z.eqb_eq in R, C1. subst. eexists; split; [reflexivity|]. cbn [properName]. rewrite F. reflexivity.
    + eexists; split; reflexivity.
  - destruct c; cbn [videoSink] in E; try discriminate; injection E as <-; cbn [kPt] in L; lia.
  - injection E as <-. eexists; split; reflexivity.
Qed.

Lemma one_stream head s aux : Forall quiet head -> offered s -> oneLine aux ->
  exists n m h, readDescr (sdpSession head [(s, aux)]) = Some (mkDescr n [m]) /\ told m = Some h /\ createStreamInfo h = made s.
Proof.
  intros Q O A. destruct (offered_sink (95 + 1) s O) as (k & K).
  assert (P : placed 1 [(s, aux)] [trackMedia (estBitrate s) k aux]) by (econstructor; [exact K|constructor]).
  destruct (read_session head [(s, aux)] [trackMedia (estBitrate s) k aux] Q) as (n & E); [ | |exact P|].
  - cbn; lia.
  - constructor; [|constructor]. split; [apply offered_small; exact O|exact A].
  - destruct (sink_made (95 + 1) s k (estBitrate s) aux ltac:(lia) K) as (h & T & M).
    exists n, (trackMedia (estBitrate s) k aux), h. split; [exact E|]. split; [exact T|exact M].
Qed.

(* ------------------------------------------------------------------ *)
(* Bandwidth. *)
Lemma est_bits k f rate ch bytes : acodec_eqb k AAC = false -> (f = S16 /\ bytes = 2) \/ (f = U8 /\ bytes = 1) ->
  0 < rate * bytes * ch -> rate * bytes * ch + 500 < U32 ->
  estBitrate (Audio k f rate ch) = (rate * bytes * ch + 500) / 1000.
Proof.
  intros A F P B. unfold estBitrate. rewrite A. cbn zeta.
  assert (E : (if fmt_eqb f S16 then rate * 2 * ch else if fmt_eqb f U8 then rate * 1 * ch else 0) = rate * bytes * ch).
  { destruct F as [(-> & ->)|(-> & ->)]; reflexivity. }
  rewrite E. rewrite (Z.mod_small (rate * bytes * ch)) by lia.
  replace (0 <? rate * bytes * ch) with true by (symmetry; apply Z.ltb_lt; lia).
  rewrite Z.mod_small by lia. reflexivity.
Qed.

Lemma line_fits pt config : 0 <= pt < 256 ->
  (List.length (lit "a=fmtp:" ++ aacFmtp pt config ++ [CR; LF]) + 1 <= aacBuffer config)%nat.
Proof.
  intros R. unfold aacFmtp, aacBuffer.
  assert (D : (List.length (unsignedText pt) <= 3)%nat).
  { unfold unsignedText. rewrite Z.mod_small by lia.
    assert (L1 : forall f n, 0 <= n < 10 -> (List.length (decimal (S f) n) = 1)%nat).
    { intros f n B. cbn [decimal]. replace (n <? 10) with true by (symmetry; apply Z.ltb_lt; lia). reflexivity. }
    assert (L2 : forall f n, 0 <= n < 100 -> (List.length (decimal (S (S f)) n) <= 2)%nat).
    { intros f n B. remember (S f) as g eqn:G. cbn [decimal]. destruct (n <? 10) eqn:Q; [cbn; lia|].
      subst g.
      rewrite app_length, L1; [cbn; lia|]. apply Z.ltb_ge in Q. split; [apply Z.div_pos; lia|apply Z.div_lt_upper_bound; lia]. }
    change 20%nat with (S (S (S 17))). remember (S (S 17)) as g eqn:G. cbn [decimal].
    destruct (pt <? 10) eqn:Q; [cbn; lia|]. rewrite app_length. subst g.
    assert (List.length (decimal 19 (pt / 10)) <= 2)%nat.
    { apply (L2 17%nat). split; [apply Z.div_pos; lia|apply Z.div_lt_upper_bound; lia]. }
    cbn [List.length]. lia. }
  rewrite !app_length. cbn [List.length].
  change (List.length (lit "a=fmtp:")) with 7%nat.
  change (List.length (lit " streamtype=5;profile-level-id=1;mode=AAC-hbr;sizelength=13;indexlength=3;indexdeltalength=3;config=")) with 100%nat.
  change (List.length aacFormat) with 109%nat. change (List.length (lit "AAC-hbr")) with 7%nat. lia.
Qed.

(* ------------------------------------------------------------------ *)
(* Plain RTP. *)
Lemma live_app l1 : forall o l2, live o (l1 ++ l2) = live (live o l1) l2.
Proof.
  induction l1 as [|a l IH]; intros o l2; [reflexivity|]. destruct a; cbn [app live]; apply IH.
Qed.

Lemma drop_one p o : dropOne p [p] = [] /\ dropOne p (p :: o) = o.
Proof. cbn [dropOne]. rewrite Z.eqb_refl. split; reflexivity. Qed.

Lemma round_live a b p q : live [] (opened a p ++ opened b q ++ closed a p ++ closed b q) = [].
Proof.
  destruct a, b; cbn [opened closed app live dropOne]; rewrite ?Z.eqb_refl; cbn [dropOne]; rewrite ?Z.eqb_refl; reflexivity.
Qed.

Lemma serverPort_step k : ((6970 + 2 * Z.of_nat k) mod U32 + 2) mod U32 = (6970 + 2 * Z.of_nat (S k)) mod U32.
Proof. rewrite Z.add_mod_idemp_l by discriminate. f_equal. lia. Qed.

Lemma search_spec h : forall fuel k,
  let '(r, l) := search h fuel k ((6970 + 2 * Z.of_nat k) mod U32) in
  match r with
  | Some pq => exists j, (k <= j < k + fuel)%nat /\ free h j = true /\ (forall i, (k <= i < j)%nat -> free h i = false) /\ pq = pair j
      /\ live [] l = [fst pq; snd pq]
  | None => (forall i, (k <= i < k + fuel)%nat -> free h i = false) /\ live [] l = []
  end.
Proof.
  induction fuel as [|fuel IH]; intros k.
  - cbn [search]. split; [intros i B; lia|reflexivity].
  - cbn [search]. cbn zeta.
    change (port16 ((6970 + 2 * Z.of_nat k) mod U32)) with (fst (pair k)).
    change (port16 ((6970 + 2 * Z.of_nat k) mod U32 + 1)) with (snd (pair k)).
    destruct (opens h (2 * k) (fst (pair k)) && opens h (2 * k + 1) (snd (pair k))) eqn:E.
    + exists k. split; [lia|]. split; [exact E|]. split; [intros i B; lia|]. split; [destruct (pair k); reflexivity|reflexivity].
    + specialize (IH (S k)). rewrite serverPort_step. destruct (search h fuel (S k) _) as [[pq|] l].
      * destruct IH as (j & B & F & M & P & L). exists j. split; [lia|]. split; [exact F|]. split.
        { intros i Bi. destruct (Nat.eq_dec i k) as [->|N]; [exact E|apply M; lia]. }
        split; [exact P|]. rewrite !app_assoc, live_app, <- !app_assoc, round_live. exact L.
      * destruct IH as (M & L). split.
        { intros i Bi. destruct (Nat.eq_dec i k) as [->|N]; [exact E|apply M; lia]. }
        rewrite !app_assoc, live_app, <- !app_assoc, round_live. exact L.
Qed.

Lemma search0 h fuel : 
  let '(r, l) := search h fuel 0 INITIAL_SERVER_PORT in
  match r with
  | Some pq => exists j, (j < fuel)%nat /\ firstFree h j /\ pq = pair j /\ live [] l = [fst pq; snd pq]
  | None => (forall i, (i < fuel)%nat -> free h i = false) /\ live [] l = []
  end.
Proof.
  generalize (search_spec h fuel 0). change ((6970 + 2 * Z.of_nat 0) mod U32) with INITIAL_SERVER_PORT.
  destruct (search h fuel 0 INITIAL_SERVER_PORT) as [[pq|] l].
  - intros (j & B & F & M & P & L). exists j. split; [lia|]. split; [split; [exact F|intros i Bi; apply M; lia]|]. split; [exact P|exact L].
  - intros (M & L). split; [intros i Bi; apply M; lia|exact L].
Qed.

Lemma even_mod port : (port mod U32) mod 2 = port mod 2.
Proof. unfold U32. rewrite <- Znumtheory.Zmod_div_mod; [reflexivity|lia|lia|exists 2147483648; reflexivity]. Qed.
Lemma mod16 x : port16 (x mod U32) = x mod 65536.
Proof. unfold port16, U32. rewrite <- Znumtheory.Zmod_div_mod; [reflexivity|lia|lia|exists 65536; reflexivity]. Qed.

Lemma connect_sending h fuel ip port s c l : connect h fuel ip port s = (Sending c, l) ->
  port mod 2 = 0 /\ cAddr c = our_inet_addr h ip /\ cRtp c = port mod 65536 /\ cRtcp c = (port + 1) mod 65536 /\ cTtl c = 255
  /\ (exists k, firstFree h k /\ (cSrc c, cSrcRtcp c) = pair k)
  /\ (exists b, stdSink s = Some (cSink c, b))
  /\ live [] l = [cSrc c; cSrcRtcp c].
Proof.
  unfold connect. cbn zeta. rewrite even_mod. destruct (port mod 2 =? 0) eqn:E; cbn [negb]; [|discriminate].
  generalize (search0 h fuel). destruct (search h fuel 0 INITIAL_SERVER_PORT) as [[[p q]|] l0]; [|discriminate].
  intros (j & _ & F & P & L). destruct (stdSink s) as [[k b]|] eqn:K; [|discriminate].
  intros X. injection X as <- <-. cbn [cAddr cRtp cRtcp cTtl cSrc cSrcRtcp cSink].
  split; [apply Z.eqb_eq; exact E|]. split; [reflexivity|]. split; [apply mod16|].
  split; [rewrite Z.add_mod_idemp_l by discriminate; apply mod16|]. split; [reflexivity|].
  split; [exists j; split; assumption|]. split; [exists b; reflexivity|].
  rewrite live_app, L. cbn [fst snd]. destruct b; reflexivity.
Qed.

Lemma connect_refused h fuel ip port s l : connect h fuel ip port s = (Refused, l) -> live [] l = [].
Proof.
  unfold connect. cbn zeta. destruct (negb _); [intros X; injection X as <-; reflexivity|].
  generalize (search0 h fuel). destruct (search h fuel 0 INITIAL_SERVER_PORT) as [[[p q]|] l0]; [|discriminate].
  intros (j & _ & F & P & L). destruct (stdSink s) as [[k b]|] eqn:K; [discriminate|].
  intros X. injection X as <-. rewrite live_app, L. cbn [fst snd teardown app live dropOne].
  rewrite Z.eqb_refl. cbn [dropOne]. rewrite Z.eqb_refl. reflexivity.
Qed.

Lemma acts_search h : forall fuel k sp a, In a (snd (search h fuel k sp)) -> exists p, a = SockOpen p \/ a = SockClose p.
Proof.
  induction fuel as [|fuel IH]; intros k sp a I; cbn [search] in I; [destruct I|]. cbn zeta in I.
  destruct (_ && _) in I.
  - cbn [snd In] in I. destruct I as [<-|[<-|[]]]; eexists; left; reflexivity.
  - specialize (IH (S k) ((sp + 2) mod U32) a). destruct (search h fuel (S k) _) as [r l]. cbn [snd] in *.
    unfold opened, closed in I. rewrite !in_app_iff in I.
    destruct I as [I|[I|[I|[I|I]]]]; [| | | |exact (IH I)];
      match type of I with In _ (if ?b then _ else _) => destruct b end; cbn [In] in I; try tauto;
      destruct I as [<-|[]]; eexists; eauto.
Qed.

Lemma acts_connect h fuel ip port s a : In a (snd (connect h fuel ip port s)) -> a <> CloseSink /\ a <> CloseSource.
Proof.
  unfold connect. cbn zeta. destruct (negb _); [intros []|].
  generalize (acts_search h fuel 0 INITIAL_SERVER_PORT a).
  destruct (search h fuel 0 INITIAL_SERVER_PORT) as [[[p q]|] l0]; cbn [snd]; intros S.
  - destruct (stdSink s) as [[k b]|]; cbn [snd]; rewrite !in_app_iff; intros I.
    + destruct I as [I|[I|[I|I]]].
      * destruct (S I) as (x & [->| ->]); split; discriminate.
      * destruct I as [<-|[]]; split; discriminate.
      * destruct b; [destruct I as [<-|[]]; split; discriminate|destruct I].
      * destruct I as [<-|[<-|[]]]; split; discriminate.
    + destruct I as [I|I]; [destruct (S I) as (x & [->| ->]); split; discriminate|].
      cbn in I. destruct I as [<-|[<-|[]]]; split; discriminate.
  - intros I. destruct (S I) as (x & [->| ->]); split; discriminate.
Qed.
