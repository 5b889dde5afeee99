(* C90: a stream announced over RTSP is received as what it is.
   C91: a plain RTP connection sends where it was told. *)
From Coq Require Import Ascii String ZArith List Bool Lia.
From Verif Require Import JsonModel CtlModel NamesModel SdpModel SdpSpec SdpProofs AnnModel AnnSpec AnnProofs AnnRecv AnnProofs2.
Import ListNotations.
Local Open Scope list_scope.
Local Open Scope Z_scope.

(* A session of any streams the transmitter offers is read by a client as one
   medium per stream, in order, with its own format line; the receiver of
   this program makes of a medium the stream that was sent if and only if
   that stream is one of those listed in [carried]. *)
Theorem C90_session_is_received_partial : forall head l,
  Forall quiet head -> (List.length l <= 32)%nat ->
  Forall (fun x => offered (fst x) /\ oneLine (snd x)) l ->
  exists d, readDescr (sdpSession head l) = Some d
    /\ Forall2 (fun x m => (received (fst x) m <-> carried (fst x)) /\ mFmtp m = snd x) l (dMedia d).
Proof.
  intros head l Q B F.
  assert (F1 : Forall (fun x => offered (fst x)) l) by (eapply Forall_impl; [|exact F]; cbn; tauto).
  destruct (offered_placed l 1 F1) as (ms & P).
  destruct (read_session head l ms Q) as (n & E); [eapply Nat.le_trans; [exact B|lia]| |exact P|].
  - eapply Forall_impl; [|exact F]. intros [s a] (O & A). split; [apply offered_small; exact O|exact A].
  - exists (mkDescr n ms). split; [exact E|]. cbn [dMedia].
    pose proof (placed_received l 1 ms ltac:(lia) P) as R. clear -R.
    induction R as [|x m l ms (A & B & _) R IH]; constructor; [split; assumption|exact IH].
Qed.

(* Each medium has its own payload type, or one of the fixed ones; all are
   valid types. *)
Theorem C90_types_told_apart : forall head l d i m,
  Forall quiet head -> (List.length l <= 32)%nat ->
  Forall (fun x => offered (fst x) /\ oneLine (snd x)) l ->
  readDescr (sdpSession head l) = Some d -> nth_error (dMedia d) i = Some m ->
  (mPt m = 96 + Z.of_nat i \/ In (mPt m) [0; 10; 11; 14; 33]) /\ 0 <= mPt m <= 127.
Proof.
  intros head l d i m Q B F E N.
  assert (F1 : Forall (fun x => offered (fst x)) l) by (eapply Forall_impl; [|exact F]; cbn; tauto).
  destruct (offered_placed l 1 F1) as (ms & P).
  destruct (read_session head l ms Q) as (n & E'); [eapply Nat.le_trans; [exact B|lia]| |exact P|].
  - eapply Forall_impl; [|exact F]. intros [s a] (O & A). split; [apply offered_small; exact O|exact A].
  - rewrite E in E'. injection E' as ->. cbn [dMedia] in N.
    assert (L : (i < 32)%nat).
    { assert (i < List.length ms)%nat by (apply nth_error_Some; rewrite N; discriminate).
      assert (List.length ms = List.length l) by (clear -P; induction P; cbn; congruence). lia. }
    destruct (placed_types l 1 ms i m P N) as [X|X]; (split; [|cbn [In] in *; lia]); [left; lia|right; exact X].
Qed.

(* A fixed payload type means what is sent: name, clock and channels. *)
Theorem C90_fixed_types_mean_the_stream : forall dyn s k,
  96 <= dyn -> rtspSink dyn s = Some k -> kPt k < 96 ->
  exists n, lookup (kPt k) registered = Some (n, kFreq k, kCh k) /\ properName s = Some n.
Proof. exact static_right. Qed.

(* The program's own announcements its own receiver refuses: linear PCM of 16
   bits, MP3, MPEG-TS, and G.711 other than 8 kHz mono. *)
Theorem C90_everything_received_refuted : forall head s aux,
  Forall quiet head -> offered s -> oneLine aux ->
  (exists r c, s = Audio PCM S16 r c) \/ (exists f r c, s = Audio MP3 f r c) \/ s = Mux
  \/ (exists f r c, s = Audio G711 f r c /\ ~ (r = 8000 /\ c = 1)) ->
  exists n m h, readDescr (sdpSession head [(s, aux)]) = Some (mkDescr n [m])
    /\ told m = Some h /\ createStreamInfo h = None.
Proof.
  intros head s aux Q O A H. destruct (one_stream head s aux Q O A) as (n & m & h & R & T & M).
  exists n, m, h. split; [exact R|]. split; [exact T|]. rewrite M.
  destruct H as [(r & c & ->)|[(f & r & c & ->)|[->|(f & r & c & -> & X)]]]; try reflexivity.
  cbn [made]. destruct (r =? 8000) eqn:E1; [|reflexivity]. destruct (c =? 1) eqn:E2; [|reflexivity].
  apply Z.eqb_eq in E1, E2. tauto.
Qed.

(* mu-law at 8 kHz mono is received as another codec, and PCM and mu-law are
   received without a sample format. *)
Theorem C90_codec_and_format_kept_refuted : forall head f aux r c,
  Forall quiet head -> oneLine aux -> small r -> small c ->
  (exists n m h, readDescr (sdpSession head [(Audio PCMU f 8000 1, aux)]) = Some (mkDescr n [m])
     /\ told m = Some h /\ createStreamInfo h = Some (IAudio G711 U8 8000 1))
  /\ (f <> S16 ->
      exists n m h, readDescr (sdpSession head [(Audio PCM f r c, aux)]) = Some (mkDescr n [m])
     /\ told m = Some h /\ createStreamInfo h = Some (IAudio PCM S_NONE r c)).
Proof.
  intros head f aux r c Q A R C. split.
  - destruct (one_stream head (Audio PCMU f 8000 1) aux Q) as (n & m & h & X & T & M); [cbn; unfold small; lia|exact A|].
    exists n, m, h. split; [exact X|]. split; [exact T|exact M].
  - intros F. destruct (one_stream head (Audio PCM f r c) aux Q) as (n & m & h & X & T & M); [split; assumption|exact A|].
    exists n, m, h. split; [exact X|]. split; [exact T|]. rewrite M. cbn [made]. destruct f; try reflexivity. congruence.
Qed.

(* A queue can be made for every stream that comes back, except for PCM and
   mu-law: they cannot be connected to anything. *)
Theorem C90_received_stream_connects_partial : forall head s aux,
  Forall quiet head -> offered s -> oneLine aux -> carried s ->
  match s with Audio PCM _ _ _ | Audio PCMU _ _ _ => False | _ => True end ->
  exists n m h i, readDescr (sdpSession head [(s, aux)]) = Some (mkDescr n [m])
    /\ told m = Some h /\ createStreamInfo h = Some i /\ faithful s i /\ queueMade i = true.
Proof.
  intros head s aux Q O A C X. destruct (one_stream head s aux Q O A) as (n & m & h & R & T & M).
  destruct (proj2 (made_faithful s) C) as (i & E & F). exists n, m, h, i.
  split; [exact R|]. split; [exact T|]. split; [congruence|]. split; [exact F|].
  destruct s as [k f r c|k|]; [destruct k|destruct k|]; cbn [made] in E; try contradiction; try discriminate;
    try (injection E as <-; reflexivity).
  destruct ((r =? 8000) && (c =? 1)); [injection E as <-; reflexivity|discriminate].
Qed.
Theorem C90_received_stream_connects_refuted : forall head s aux,
  Forall quiet head -> offered s -> oneLine aux -> carried s ->
  match s with Audio PCM _ _ _ | Audio PCMU _ _ _ => True | _ => False end ->
  exists n m h i, readDescr (sdpSession head [(s, aux)]) = Some (mkDescr n [m])
    /\ told m = Some h /\ createStreamInfo h = Some i /\ faithful s i /\ queueMade i = false.
Proof.
  intros head s aux Q O A C X. destruct (one_stream head s aux Q O A) as (n & m & h & R & T & M).
  destruct (proj2 (made_faithful s) C) as (i & E & F). exists n, m, h, i.
  split; [exact R|]. split; [exact T|]. split; [congruence|]. split; [exact F|].
  destruct s as [k f r c|k|]; [destruct k|destruct k|]; try contradiction; cbn [made carried] in *.
  - destruct ((r =? 8000) && (c =? 1)) eqn:B; [|injection E as <-; reflexivity].
    apply andb_prop in B as (B1 & B2). apply Z.eqb_eq in B1, B2. tauto.
  - destruct (fmt_eqb f S16); [discriminate|]. injection E as <-. reflexivity.
Qed.

(* The names under which streams are announced with a type of their own are
   the registered ones, except for PCM that is not of 16 bits and for G.711
   and mu-law not at 8 kHz mono ... *)
Theorem C90_names_are_registered_partial : forall dyn s k, 96 <= dyn -> rtspSink dyn s = Some k -> kPt k = dyn ->
  match s with
  | Audio PCM f _ _ => f = S16
  | Audio AC_NONE _ _ _ | Audio G711 _ _ _ => False
  | _ => True
  end ->
  properName s = Some (map capital (kName k)).
Proof.
  intros dyn s k D K T C. destruct s as [c f r ch|c|]; cbn [rtspSink] in K.
  - injection K as K. subst k.
    destruct c; try contradiction; subst; try reflexivity; unfold simpleAudioSink, payload in *; cbn [acodec_eqb andb orb fmt_eqb] in *.
    + destruct ((r =? 8000) && (ch =? 1)) eqn:B; [|destruct (r =? 8000); destruct (ch =? 1); try discriminate B; reflexivity].
      destruct (r =? 8000); [|discriminate B]. destruct (ch =? 1); [|discriminate B]. cbn [andb kPt] in T. lia.
  - destruct c; try discriminate; injection K as <-; reflexivity.
  - injection K as <-. cbn [kPt] in T. lia.
Qed.

(* ... which go under names no register has. *)
Theorem C90_names_are_registered_refuted : forall dyn r c,
  (exists k, rtspSink dyn (Audio PCM U8 r c) = Some k /\ map capital (kName k) = txt "PCM" /\ properName (Audio PCM U8 r c) = Some (txt "L8"))
  /\ exists k, rtspSink dyn (Audio G711 U8 r c) = Some k /\ map capital (kName k) = txt "G711" /\ properName (Audio G711 U8 r c) = Some (txt "PCMU").
Proof.
  intros dyn r c. split; eexists; (split; [reflexivity|]); (split; [|reflexivity]); [reflexivity|].
  unfold simpleAudioSink, payload. cbn [acodec_eqb andb orb fmt_eqb].
  destruct (r =? 8000); destruct (c =? 1); reflexivity.
Qed.

(* The announced bandwidth of uncompressed audio, in kilobits per second, is
   an eighth of what the stream takes. *)
Theorem C90_bandwidth_announced_refuted : forall k f bytes rate ch,
  k <> AAC -> (f = S16 /\ bytes = 2) \/ (f = U8 /\ bytes = 1) ->
  72 <= rate * bytes * ch -> rate * bytes * ch + 500 < 4294967296 ->
  1000 * estBitrate (Audio k f rate ch) < rawBits bytes rate ch
  /\ 8 * (1000 * estBitrate (Audio k f rate ch)) <= rawBits bytes rate ch + 4000.
Proof.
  intros k f bytes rate ch K F L U. rewrite (est_bits k f rate ch bytes); [|destruct k; first [reflexivity|congruence]|exact F|lia|exact U].
  replace (rawBits bytes rate ch) with (8 * (rate * bytes * ch)) by (unfold rawBits; ring).
  pose proof (Z.mul_div_le (rate * bytes * ch + 500) 1000 ltac:(lia)). lia.
Qed.

(* The format line of AAC fits in the buffer it is printed into, with its
   terminator. *)
Theorem C90_format_line_fits : forall pt config, 0 <= pt < 256 ->
  (List.length (lit "a=fmtp:" ++ aacFmtp pt config ++ [CR; LF]) + 1 <= aacBuffer config)%nat.
Proof. exact line_fits. Qed.

Definition sampleHead : list text := [txt "v=0"; txt "s=live"; txt "t=0 0"; txt "a=control:*"].
Lemma sampleHead_quiet : Forall quiet sampleHead.
Proof.
  assert (L : forall l, l <> [] -> existsb (Ascii.eqb "010") l = false -> existsb (Ascii.eqb "013") l = false -> isLine l).
  { intros l N A B. split; [exact N|]. split; intros I.
    - assert (existsb (Ascii.eqb "010") l = true) by (apply existsb_exists; eexists; split; [exact I|reflexivity]). congruence.
    - assert (existsb (Ascii.eqb "013") l = true) by (apply existsb_exists; eexists; split; [exact I|reflexivity]). congruence. }
  repeat constructor; try reflexivity; apply L; try reflexivity; discriminate.
Qed.
(* An H.264 and an AAC stream: both are received. *)
Example C90_session_example :
  let l := [(Video H264, Some (txt "96 packetization-mode=1")); (Audio AAC S16 48000 2, Some (aacFmtp 97 (txt "1190")))] in
  Forall quiet sampleHead /\ (List.length l <= 32)%nat /\ Forall (fun x => offered (fst x) /\ oneLine (snd x)) l
  /\ Forall (fun x => carried (fst x)) l
  /\ readDescr (sdpSession sampleHead l) =
     Some (mkDescr (Some (txt "live"))
       [mkMedia (txt "video") 0 (txt "RTP/AVP") 96 (Some 2000) (Some (96, txt "H264", 90000, None)) (Some (txt "96 packetization-mode=1"));
        mkMedia (txt "audio") 0 (txt "RTP/AVP") 97 (Some 128) (Some (97, txt "MPEG4-GENERIC", 48000, Some 2))
          (Some (aacFmtp 97 (txt "1190")))]).
Proof.
  split; [exact sampleHead_quiet|]. split; [cbn; lia|]. split.
  - constructor; [split; [left; reflexivity|split; lit_lacks]|].
    constructor; [split; [split; unfold small; lia|split; lit_lacks]|]. constructor.
  - split; [repeat constructor|vm_compute; reflexivity].
Qed.
(* CD audio is announced with the fixed type 10 at 176 kb/s instead of 1411. *)
Example C90_cd_example : exists k,
  rtspSink 96 (Audio PCM S16 44100 2) = Some k /\ kPt k = 10 /\ estBitrate (Audio PCM S16 44100 2) = 176 /\ rawBits 2 44100 2 = 1411200.
Proof. eexists. repeat split. Qed.

(* ------------------------------------------------------------------ *)

(* A connection that is set up sends to the address that was asked for, to
   the even port that was asked for and the next one, from the first pair of
   adjacent ports at or above 6970 that is free. *)
Theorem C91_sends_where_told_partial : forall h fuel ip a port s c l,
  inet h ip = Some a -> 0 <= port <= 65535 ->
  connect h fuel ip port s = (Sending c, l) ->
  cAddr c = a /\ Z.even port = true /\ cRtp c = port /\ cRtcp c = port + 1 /\ cTtl c = 255
  /\ exists k, firstFree h k /\ (cSrc c, cSrcRtcp c) = pair k.
Proof.
  intros h fuel ip a port s c l A R E. destruct (connect_sending _ _ _ _ _ _ _ E) as (P & X1 & X2 & X3 & X4 & X5 & _).
  unfold our_inet_addr in X1. rewrite A in X1.
  assert (EV : Z.even port = true) by (rewrite Zeven_mod, P; reflexivity).
  assert (port <> 65535) by (intros ->; discriminate).
  rewrite Z.mod_small in X2 by lia. rewrite Z.mod_small in X3 by lia. repeat split; assumption.
Qed.

(* The ports it sends from are neighbours, the lower one even, as long as one
   of the pairs up to 65534 is free. *)
Theorem C91_source_ports_are_a_pair_partial : forall k, Z.of_nat k < 29283 ->
  fst (pair k) = 6970 + 2 * Z.of_nat k /\ snd (pair k) = fst (pair k) + 1.
Proof.
  intros k B. unfold pair, port16, U32. cbn [fst snd]. rewrite !(Z.mod_small (6970 + 2 * Z.of_nat k)) by lia.
  rewrite Z.mod_small by lia. split; reflexivity.
Qed.

(* An odd port is refused before anything is opened. *)
Theorem C91_odd_port_refused : forall h fuel ip port s, Z.odd port = true ->
  connect h fuel ip port s = (Refused, []).
Proof.
  intros h fuel ip port s O. unfold connect. cbn zeta. rewrite even_mod.
  rewrite Zodd_mod in O. apply Zeq_bool_eq in O. rewrite O. reflexivity.
Qed.

(* An even port is refused only for a stream that has no RTP payload, and it
   then leaves no socket open; while a connection is there it has exactly its
   two sockets, and none once it is removed. *)
Theorem C91_sockets_are_closed : forall h fuel ip port s,
  (forall l, connect h fuel ip port s = (Refused, l) -> live [] l = [])
  /\ (forall l, connect h fuel ip port s = (Searching, l) -> live [] l = [])
  /\ (forall c l, connect h fuel ip port s = (Sending c, l) ->
        live [] l = [cSrc c; cSrcRtcp c] /\ live [] (l ++ remove c) = []).
Proof.
  intros h fuel ip port s. split; [exact (connect_refused h fuel ip port s)|]. split.
  - intros l. unfold connect. cbn zeta. destruct (negb _); [discriminate|].
    generalize (search0 h fuel). destruct (search h fuel 0 INITIAL_SERVER_PORT) as [[[p q]|] l0].
    + destruct (stdSink s) as [[k b]|]; discriminate.
    + intros (_ & L) X. injection X as <-. exact L.
  - intros c l E. destruct (connect_sending _ _ _ _ _ _ _ E) as (_ & _ & _ & _ & _ & _ & _ & L).
    split; [exact L|]. rewrite live_app, L. unfold remove, teardown. cbn [app live dropOne].
    rewrite Z.eqb_refl. cbn [dropOne]. rewrite Z.eqb_refl. reflexivity.
Qed.

Theorem C91_refused_streams : forall h fuel ip port s l, Z.even port = true ->
  connect h fuel ip port s = (Refused, l) ->
  match s with Video H264 | Video H265 | Video VP8 | Audio _ _ _ _ => False | _ => True end.
Proof.
  intros h fuel ip port s l V. unfold connect. cbn zeta. rewrite even_mod.
  rewrite Zeven_mod in V. apply Zeq_bool_eq in V. rewrite V. cbn [negb Z.eqb].
  destruct (search h fuel 0 INITIAL_SERVER_PORT) as [[[p q]|] l0]; [|discriminate].
  destruct s as [c f r ch|c|]; [| |exact (fun _ => I)].
  - cbn [stdSink]. destruct (acodec_eqb c MP3); [discriminate|]. destruct (acodec_eqb c AAC); discriminate.
  - destruct c; cbn [stdSink videoSink]; try discriminate; exact (fun _ => I).
Qed.

(* The stream goes out under the name and fixed type it has over RTSP; its
   own type is 96 for video and 97 for audio.  A framer is put before the sink
   exactly for H.264, H.265 and AAC. *)
Theorem C91_same_payload_as_rtsp : forall s k b, stdSink s = Some (k, b) ->
  rtspSink (match s with Video _ => 96 | _ => 97 end) s = Some k
  /\ (b = true <-> s = Video H264 \/ s = Video H265 \/ exists f r c, s = Audio AAC f r c).
Proof.
  intros s k b E. split; [|
    destruct s as [c f r ch|c|]; cbn [stdSink] in E; [| |discriminate];
    [ destruct c; cbn [acodec_eqb] in E; injection E as _ <-; split;
      try discriminate; try (intros [X|[X|(f' & r' & c' & X)]]; discriminate);
      first [reflexivity | intros _; right; right; repeat eexists]
    | destruct c; cbn [videoSink] in E; try discriminate; injection E as _ <-; split;
      try discriminate; try (intros [X|[X|(f' & r' & c' & X)]]; discriminate); auto ]]. destruct s as [c f r ch|c|]; cbn [stdSink rtspSink] in *; [| |discriminate].
  - destruct c; cbn [acodec_eqb] in *; injection E as <- _; reflexivity.
  - destruct (videoSink 96 c); [|discriminate]. injection E as <- _. reflexivity.
Qed.

(* The search ends with a connection (or a refusal) if some pair of ports is
   free ... *)
Theorem C91_search_ends_partial : forall h fuel ip port s k, free h k = true -> (k < fuel)%nat ->
  fst (connect h fuel ip port s) <> Searching.
Proof.
  intros h fuel ip port s k F B. unfold connect. cbn zeta. destruct (negb _); [discriminate|].
  generalize (search0 h fuel). destruct (search h fuel 0 INITIAL_SERVER_PORT) as [[[p q]|] l0].
  - intros _. destruct (stdSink s) as [[x b]|]; discriminate.
  - intros (M & _). rewrite (M k B) in F. discriminate.
Qed.

(* ... and never ends if none is: the program's control thread is lost. *)
Theorem C91_search_ends_refuted : forall h fuel ip port s, Z.even port = true -> (forall k, free h k = false) ->
  fst (connect h fuel ip port s) = Searching.
Proof.
  intros h fuel ip port s V N. unfold connect. cbn zeta. rewrite even_mod.
  rewrite Zeven_mod in V. apply Zeq_bool_eq in V. rewrite V. cbn [negb Z.eqb].
  generalize (search0 h fuel). destruct (search h fuel 0 INITIAL_SERVER_PORT) as [[[p q]|] l0]; [|reflexivity].
  intros (j & _ & (F & _) & _). rewrite N in F. discriminate.
Qed.

(* When all the pairs up to 65534 are taken the next one asked for is "any
   port" and port 1. *)
Theorem C91_source_ports_are_a_pair_refuted : forall k, Z.of_nat k = 29283 -> pair k = (0, 1).
Proof. intros k E. unfold pair. rewrite E. reflexivity. Qed.

(* A port that is no port is accepted and another one is sent to: even
   numbers outside 0..65535 are taken modulo 65536. *)
Theorem C91_wrong_port_refused_refuted : forall h fuel ip port s k, Z.even port = true ->
  free h k = true -> (k < fuel)%nat -> (exists x, stdSink s = Some x) ->
  exists c l, connect h fuel ip port s = (Sending c, l) /\ cRtp c = port mod 65536.
Proof.
  intros h fuel ip port s k V F B ((x & b) & S).
  pose proof (C91_search_ends_partial h fuel ip port s k F B) as E.
  destruct (connect h fuel ip port s) as [[| |c] l] eqn:C.
  - exfalso. unfold connect in C. cbn zeta in C. rewrite even_mod in C. rewrite Zeven_mod in V. apply Zeq_bool_eq in V. rewrite V in C.
    cbn [negb Z.eqb] in C. rewrite S in C. destruct (search h fuel 0 INITIAL_SERVER_PORT) as [[[p q]|] l0]; discriminate.
  - exfalso. apply E. reflexivity.
  - exists c, l. split; [reflexivity|]. destruct (connect_sending _ _ _ _ _ _ _ C) as (_ & _ & X & _). exact X.
Qed.

(* A text that is no address is accepted, and the stream is sent to
   255.255.255.255. *)
Theorem C91_wrong_address_refused_refuted : forall h fuel ip port s k, inet h ip = None -> Z.even port = true ->
  free h k = true -> (k < fuel)%nat -> (exists x, stdSink s = Some x) ->
  exists c l, connect h fuel ip port s = (Sending c, l) /\ cAddr c = 4294967295.
Proof.
  intros h fuel ip port s k A V F B S.
  destruct (C91_wrong_port_refused_refuted h fuel ip port s k V F B S) as (c & l & E & _).
  exists c, l. split; [exact E|]. destruct (connect_sending _ _ _ _ _ _ _ E) as (_ & X & _).
  unfold our_inet_addr in X. rewrite A in X. exact X.
Qed.

(* Neither the sink nor the source of a connection is ever closed, refused,
   running or removed. *)
Theorem C91_everything_closed_refuted : forall h fuel ip port s c l,
  connect h fuel ip port s = (Sending c, l) ->
  In (NewSink (cSink c)) (l ++ remove c) /\ ~ In CloseSink (l ++ remove c) /\ ~ In CloseSource (l ++ remove c).
Proof.
  intros h fuel ip port s c l E.
  assert (N : forall a, In a (l ++ remove c) -> a <> CloseSink /\ a <> CloseSource).
  { intros a I. apply in_app_or in I as [I|I].
    - apply (acts_connect h fuel ip port s). rewrite E. exact I.
    - cbn in I. destruct I as [<-|[<-|[<-|[<-|[]]]]]; split; discriminate. }
  split; [|split; intros I; destruct (N _ I); congruence].
  unfold connect in E. cbn zeta in E. destruct (negb _) in E; [discriminate|].
  destruct (search h fuel 0 INITIAL_SERVER_PORT) as [[[p q]|] l0]; [|discriminate].
  destruct (stdSink s) as [[k b]|]; [|discriminate]. injection E as <- <-. cbn [cSink].
  apply in_or_app. left. apply in_or_app. right. left. reflexivity.
Qed.

(* A host where ports 6970 to 6973 are taken. *)
Definition sampleHost : host :=
  mkHost (fun t => if streq t (lit "10.0.0.7") then Some 167772167 else None) (fun _ p => 6974 <=? p).
Example C91_example :
  firstFree sampleHost 2 /\
  fst (connect sampleHost 10 (lit "10.0.0.7") 5004 (Audio OPUS S16 48000 2)) =
    Sending (mkConn 167772167 5004 5005 255 6974 6975 (mkSink (lit "audio") 97 (lit "opus") 48000 2)) /\
  fst (connect sampleHost 10 (lit "nowhere") (-2) (Video H264)) =
    Sending (mkConn 4294967295 65534 65535 255 6974 6975 (mkSink (lit "video") 96 (lit "H264") 90000 1)) /\
  fst (connect sampleHost 10 (lit "10.0.0.7") 5004 (Video MJPEG)) = Refused.
Proof.
  split.
  - split; [vm_compute; reflexivity|]. intros j B. destruct j as [|[|j]]; [vm_compute; reflexivity|vm_compute; reflexivity|lia].
  - repeat split; vm_compute; reflexivity.
Qed.

(* A host with no free port at all. *)
Example C91_no_port_example : forall k, free (mkHost (fun _ => None) (fun _ _ => false)) k = false.
Proof. reflexivity. Qed.

Print Assumptions C90_session_is_received_partial.
Print Assumptions C90_types_told_apart.
Print Assumptions C90_fixed_types_mean_the_stream.
Print Assumptions C90_everything_received_refuted.
Print Assumptions C90_codec_and_format_kept_refuted.
Print Assumptions C90_received_stream_connects_partial.
Print Assumptions C90_received_stream_connects_refuted.
Print Assumptions C90_names_are_registered_partial.
Print Assumptions C90_names_are_registered_refuted.
Print Assumptions C90_bandwidth_announced_refuted.
Print Assumptions C90_format_line_fits.
Print Assumptions C91_sends_where_told_partial.
Print Assumptions C91_source_ports_are_a_pair_partial.
Print Assumptions C91_odd_port_refused.
Print Assumptions C91_sockets_are_closed.
Print Assumptions C91_refused_streams.
Print Assumptions C91_same_payload_as_rtsp.
Print Assumptions C91_search_ends_partial.
Print Assumptions C91_search_ends_refuted.
Print Assumptions C91_source_ports_are_a_pair_refuted.
Print Assumptions C91_wrong_port_refused_refuted.
Print Assumptions C91_wrong_address_refused_refuted.
Print Assumptions C91_everything_closed_refuted.
