(* C92: opening a source tells its streams as they are. *)
From Coq Require Import String ZArith List Bool Lia.
From Verif Require Import Base Bytes NamesModel AnnModel DmxModel DmxSpec DmxProofs DmxProps OpnModel OpnSpec OpnProofs.
Import ListNotations.
Local Open Scope list_scope.
Local Open Scope Z_scope.

(* Nothing opened yet. *)
Definition nothing : string * answer := (EmptyString, NoOpen).

(* After any history the filter lists the streams of the source opened last,
   one each under its number in the source, and nothing if that source could
   not be opened. *)
Theorem C92_streams_listed ops o ys :
  run created ops = Some (o, ys) ->
  let '(uri, a) := lastOpen nothing ops in
  oUri o = uri /\ List.length (oTable o) = List.length (streamsOf a) /\
  forall n v, nth_error (streamsOf a) n = Some v ->
    exists x, nth_error (oTable o) n = Some x /\ tells v (p1Si x).
Proof.
  intros H. pose proof (run_shows ops created nothing o ys (conj eq_refl (conj eq_refl eq_refl)) H) as S.
  destruct (lastOpen nothing ops) as [uri a]. destruct S as (U & T & _). cbn [fst snd] in *. split; [exact U|].
  rewrite T, map_length. split; [reflexivity|]. intros n v N. eexists. split; [apply map_nth_error, N|apply tells_open].
Qed.

(* An opening says whether it was made. *)
Theorem C92_failure_is_told o uri a o' b :
  setURI o uri a = (o', b) -> b = opensWell a /\ (b = false -> oTable o' = []).
Proof.
  intros H. destruct (setURI_state o uri a) as (f & n & X). rewrite X in H. injection H as <- <-. split; [reflexivity|].
  destruct a; [reflexivity|reflexivity|discriminate].
Qed.

(* After a failed opening nothing is delivered, neither of the source that
   failed nor of the one before. *)
Theorem C92_failure_delivers_nothing ops o ys dx toUs st cap connected n :
  run created ops = Some (o, ys) -> opensWell (snd (lastOpen nothing ops)) = false ->
  oDx o = Some dx -> exists dx', calls toUs st cap connected n dx = Some (dx', []).
Proof.
  intros H W D. pose proof (run_shows ops created nothing o ys (conj eq_refl (conj eq_refl eq_refl)) H) as (_ & T & X).
  rewrite T in X. destruct (snd (lastOpen nothing ops)) as [|src|]; [congruence| |discriminate].
  cbn [streamsOf map packetsOf filterOf] in X. rewrite X in D. injection D as <-. clear.
  revert src. induction n as [|n IH]; intros src; [eexists; reflexivity|].
  cbn [calls]. unfold doProcess, fetch, opened. cbn [hand source].
  destruct src as [|p src]; cbn [infos].
  - destruct (IH []) as (dx' & E). unfold opened in E. rewrite E. eauto.
  - assert (infosOf [] (kStream p) = None) as ->. { unfold infosOf. destruct (_ <? 0); [reflexivity|]. destruct (Z.to_nat _); reflexivity. }
    destruct (IH src) as (dx' & E). unfold opened in E. cbn [infos source]. rewrite E. eauto.
Qed.

(* A user who opens sources only while nothing is connected, and connects only
   listed streams that are not raw video, sees what the specification says:
   exactly the connectable streams connect, and whoever is connected is told
   the stream of that number; no freed or missing memory is used. *)
Theorem C92_careful_use_partial ops :
  careful [] [] ops -> exists o ys, run created ops = Some (o, ys) /\ Forall2 meets ys (wants [] [] ops).
Proof. intros C. apply (careful_run ops created false [] []); [|exact C]. repeat split; constructor. Qed.

(* Opening another source while a stream is connected deletes the information
   the connected filter holds. *)
Theorem C92_reopening_refuted v uri uri' w a filt src : connectable v = true -> 
  w = 0 -> run created [Open uri (Streams [v] filt src); Connect w; Open uri' a; Look w] = None.
Proof.
  intros C ->. cbn [run step]. destruct (setURI_state created uri (Streams [v] filt src)) as (f0 & n0 & X0). rewrite X0. clear X0.
  cbn [oQueues created List.length Z.of_nat Z.leb Z.compare].
  unfold queueOf at 1, allocQueue. cbn [find option_map oTable Z.ltb Z.compare Z.to_nat nth_error streamsOf filterOf map].
  pose proof (connectable_is filt v) as Y.
  assert (rawVideo v = false) as NR. { revert C. unfold connectable, rawVideo. destruct (vDesc v) as [[[] s]|]; try reflexivity. destruct (String.eqb_spec s "rawvideo") as [->|]; [discriminate|reflexivity]. }
  destruct (siInfo (p1Si (openStream filt v))) as [[k f r c|k x f]|]; [| |destruct Y; congruence].
  2: destruct k; try congruence.
  all: destruct Y as [Y _]; rewrite Y, C; cbv iota beta;
    match goal with |- context[setURI ?o ?u ?b] => destruct (setURI_state o u b) as (g & n & X); rewrite X end;
    cbn [oGen oQueues]; unfold queueOf; cbn [find fst Z.eqb option_map snd oQueues oGen created]; reflexivity.
Qed.
(* Connecting a number that is not listed, or raw video, uses missing memory
   (a null pointer; a pixel format that was never set). *)
Theorem C92_unlisted_writer_refuted ops o ys w :
  run created ops = Some (o, ys) -> oQueues o = [] -> at_ (streamsOf (snd (lastOpen nothing ops))) w = None ->
  run created (ops ++ [Connect w]) = None.
Proof.
  intros H Q A. pose proof (run_shows ops created nothing o ys (conj eq_refl (conj eq_refl eq_refl)) H) as (_ & T & _).
  assert (forall o1 l, run o1 l = Some (o, ys) -> run o1 (l ++ [Connect w]) = None) as G; [|exact (G created ops H)].
  clear H. intros o1 l. revert o1 ys. induction l as [|x l IH]; intros o1 ys H; cbn [run app] in *.
  - injection H as -> <-. cbn [step]. rewrite Q. cbn [List.length Z.of_nat Z.leb Z.compare queueOf find option_map].
    unfold allocQueue. revert A. unfold at_. destruct (w <? 0); [reflexivity|]. intros A. rewrite T.
    replace (nth_error (map _ _) (Z.to_nat w)) with (@None opened1); [reflexivity|].
    symmetry. apply nth_error_None. rewrite map_length. apply nth_error_None, A.
  - destruct (step o1 x) as [[o2 y]|]; [|reflexivity]. destruct (run o2 l) as [[o3 zs]|] eqn:R; [|discriminate].
    injection H as -> <-. rewrite (IH o2 zs R). reflexivity.
Qed.
Theorem C92_raw_video_refuted uri v filt src : rawVideo v = true -> run created [Open uri (Streams [v] filt src); Connect 0] = None.
Proof.
  intros C. cbn [run step]. destruct (setURI_state created uri (Streams [v] filt src)) as (f0 & n0 & X0). rewrite X0. clear X0.
  unfold queueOf, allocQueue. pose proof (connectable_is filt v) as Y.
  cbn [oQueues created List.length Z.of_nat Z.leb Z.compare find option_map oTable Z.ltb Z.to_nat nth_error streamsOf filterOf map].
  destruct (siInfo (p1Si (openStream filt v))) as [[k f r c|[] x f]|]; try reflexivity; destruct Y as [_ Y]; congruence.
Qed.

(* A-law and mu-law of any rate are told as one and the same codec, mono at 8000;
   unsigned PCM is told as mu-law; PCM of other sample sizes is listed but cannot
   be connected. *)
Theorem C92_law_told_refuted filt v n : n = "pcm_alaw"%string \/ n = "pcm_mulaw"%string -> vDesc v = Some (LT_AUDIO, n) ->
  siInfo (p1Si (openStream filt v)) = Some (IAudio G711 U8 8000 1).
Proof. intros N D. rewrite told, D. destruct N as [->| ->]; reflexivity. Qed.
Theorem C92_unsigned_told_refuted filt v r : vDesc v = Some (LT_AUDIO, append "pcm_u" r) ->
  exists f, siInfo (p1Si (openStream filt v)) = Some (IAudio PCMU f (vRate v) (vCh v)).
Proof. intros D. rewrite told, D. unfold audioInfo. rewrite audio_codec. destruct r; cbn; eauto. Qed.
Theorem C92_deep_pcm_refuted v r : vDesc v = Some (LT_AUDIO, append "pcm_s" r) -> vFmt v = L_S32 \/ vFmt v = L_DBL -> connectable v = false.
Proof. intros D F. unfold connectable. rewrite D. unfold pcmName. destruct F as [-> | ->]; destruct r; reflexivity. Qed.

(* A stream said to come one NAL unit per frame. *)
Definition saysUnits (i : sinfo) : Prop := exists k, siInfo i = Some (IVideo k true true).
(* Its packets are split: H.264 with parameter sets, in Annex B form or with the filter at hand. *)
Definition splits (filt : bool) (v : avstream) : bool :=
  match vDesc v with
  | Some (LT_VIDEO, s) => String.eqb s "h264" && (4 <? Z.of_nat (List.length (vExtra v))) && ((nth 0 (vExtra v) 0 =? 0) || filt)
  | _ => false
  end.
Lemma splits_psi filt v : splits filt v = true -> needsFraming (p1Psi (openStream filt v)) = true /\ isAnnexB (p1Psi (openStream filt v)) = (nth 0 (vExtra v) 0 =? 0).
Proof.
  unfold splits, openStream. destruct (vDesc v) as [[[] s]|]; try discriminate.
  intros H. apply andb_prop in H. destruct H as [H A]. apply andb_prop in H. destruct H as [H B].
  apply String.eqb_eq in H. subst s. cbn [videoInfo getVideoCodecFromLibavString isH264 andb]. unfold videoInfo. cbn. rewrite B. cbn. auto.
Qed.
Lemma infosOf_at filt l w v : at_ l w = Some v -> infosOf (map (openStream filt) l) w = Some (p1Psi (openStream filt v)).
Proof. intros A. destruct (at_nth filt l w v A) as [N P]. unfold infosOf. rewrite P, N. reflexivity. Qed.
Lemma outAll_units toUs st connected w known : forall l last f,
  Forall (wfPacket known) l -> In f (outAll toUs st connected (map framed) w known last l) ->
  exists i, known (dStream f) = Some i /\ (needsFraming i = true -> exists u, nal (body u) /\ dData f = framed u).
Proof.
  induction l as [|[p us] l IH]; intros last f W I; [contradiction|]. cbn [outAll] in I. cbv zeta in I.
  destruct (known (kStream p)) as [i|] eqn:K; [|exact (IH last f (Forall_inv_tail W) I)].
  apply in_app_or in I. destruct I as [I|I]; [|exact (IH _ f (Forall_inv_tail W) I)].
  unfold outOf in I. destruct (negb (connected (kStream p))); [contradiction|].
  destruct (needsFraming i) eqn:N.
  - destruct (carried i p) as [b|] eqn:C; [|contradiction]. apply in_map_iff in I. destruct I as (x & <- & I).
    apply in_map_iff in I. destruct I as (u & <- & I). cbn [dStream dData]. exists i. split; [exact K|]. intros _. exists u. split; [|reflexivity].
    destruct (Forall_inv W i K N b C) as (_ & _ & F). rewrite Forall_forall in F. apply F, I.
  - destruct I as [<-|[]]. exists i. split; [exact K|]. congruence.
Qed.

(* If all streams said to come by units are split, every frame of theirs is one
   NAL unit with its start code, whatever the packets (whole units, the last of
   a packet not very short: C37). *)
Theorem C92_framed_streams_are_split_partial uri l filt src toUs st cap connected n o d' got :
  (forall w v, at_ l w = Some v -> saysUnits (p1Si (openStream filt v)) -> splits filt v = true) ->
  let known := infosOf (map (openStream filt) l) in
  goodStream cap known src -> Forall (fun x => roomy (snd x) /\ kPts (fst x) <> None) src ->
  fst (setURI created uri (Streams l filt (map fst src))) = o ->
  option_map (calls toUs st cap connected n) (oDx o) = Some (Some (d', got)) ->
  forall f v, In f got -> at_ l (dStream f) = Some v -> saysUnits (p1Si (openStream filt v)) ->
    exists u, nal (body u) /\ dData f = framed u.
Proof.
  intros Sp known G R <- C f v I A U.
  destruct (C37_one_frame_per_unit_partial toUs st cap connected known src n G R) as (d1 & got1 & C1 & (rest & P) & _).
  assert (oDx (fst (setURI created uri (Streams l filt (map fst src)))) = Some (opened known (map fst src))) as X.
  { cbn [setURI]. destruct (filters _ _ _). reflexivity. }
  rewrite X in C. cbn [option_map] in C. rewrite C1 in C. injection C as <- <-.
  assert (In f (outAll toUs st connected (map framed) toUs known (fun _ => 0) src)) as I'. { rewrite P. apply in_or_app. left. exact I. }
  destruct G as (_ & W & _). destruct (outAll_units _ _ _ _ _ _ _ _ W I') as (i & K & N).
  unfold known in K. rewrite (infosOf_at filt l _ v A) in K. injection K as <-.
  apply N. apply splits_psi, (Sp _ _ A U).
Qed.
(* H.265, and H.264 with four or fewer bytes of parameters, are said to come by
   units too, but a packet is passed on as it is, with all its units. *)
Theorem C92_one_unit_per_frame_refuted v filt us uri toUs st cap time conv :
  (vDesc v = Some (LT_VIDEO, "hevc"%string) \/
   vDesc v = Some (LT_VIDEO, "h264"%string) /\ (List.length (vExtra v) <= 4)%nat) ->
  len (annexB us) <= cap 0 ->
  saysUnits (p1Si (openStream filt v)) /\
  exists d t, option_map (calls toUs st cap (fun _ => true) 1)
       (oDx (fst (setURI created uri (Streams [v] filt [mkPkt 0 (Some time) (annexB us) conv])))) =
     Some (Some (d, [mkD 0 t (annexB us)])).
Proof.
  intros V F. 
  assert (siInfo (p1Si (openStream filt v)) = Some (IVideo (match vDesc v with Some (_, s) => getVideoCodecFromLibavString s | None => VC_NONE end) true true) /\ p1Psi (openStream filt v) = mkPsi false false 0) as [S P].
  { rewrite told. unfold openStream. destruct V as [-> |[-> L]]; cbn; [auto|].
    split; [reflexivity|]. replace (4 <? Z.of_nat (List.length (vExtra v))) with false by (symmetry; apply Z.ltb_ge; lia). reflexivity. }
  split; [eexists; exact S|].
  match goal with |- context[setURI created uri ?b] => destruct (setURI_state created uri b) as (f0 & n0 & X0); rewrite X0; clear X0 end.
  cbn [fst oDx option_map calls streamsOf filterOf map packetsOf].
  unfold doProcess, fetch, opened. cbn [hand source infos kStream kPts kData].
  unfold infosOf at 1. cbn [Z.ltb Z.compare Z.to_nat nth_error option_map]. rewrite P.
  cbn [needsFraming andb negb isAnnexB infos source kStream]. replace (len (annexB us) <=? cap 0) with true by (symmetry; apply Z.leb_le; exact F).
  eauto.
Qed.

(* Every conversion filter made is closed again, except those made for the
   second and further MP4 style H.264 streams of one source. *)
Theorem C92_filters_lost_exactly ops o ys : run created ops = Some (o, ys) -> oLost o = surplus ops.
Proof. intros H. rewrite (lost_run ops created o ys H). reflexivity. Qed.
Theorem C92_filters_closed_partial ops o ys : run created ops = Some (o, ys) ->
  Forall (fun x => match x with Open _ a => (List.length (filter avcc (streamsOf a)) <= 1)%nat | _ => True end) ops -> oLost o = 0%nat.
Proof.
  intros H F. rewrite (C92_filters_lost_exactly ops o ys H). clear H. induction F as [|x l A F IH]; [reflexivity|].
  destruct x; cbn [surplus]; try exact IH. rewrite IH. unfold beyond. destruct (filterOf a); [|reflexivity]. lia.
Qed.

(* A clip with H.264 in MP4 form, sound and subtitles. *)
Definition clip : list avstream :=
  [mkAv (Some (LT_VIDEO, "h264"%string)) 0 0 L_NONE [1; 100; 0; 31; 255; 225] 1 90000;
   mkAv (Some (LT_AUDIO, "aac"%string)) 48000 2 L_FLTP [17; 144] 1 48000;
   mkAv (Some (LT_OTHER, "mov_text"%string)) 0 0 L_NONE [] 1 1000].
Example C92_use_example :
  let ops := [Open "a.mp4" (Streams clip true []); Connect 1; Connect 0; Connect 2; Look 1; Disconnect 0; Disconnect 1;
              Open "b.mp4" NoOpen; Look 0] in
  careful [] [] ops /\
  option_map snd (run created ops) =
  Some [Done true; Done true; Done true; Done false; Info (mkSi (Some (IAudio AAC S16 48000 2)) [17; 144]); Done true; Done true; Done false; Done false].
Proof.
  split; [|vm_compute; reflexivity]. vm_compute. repeat match goal with |- _ /\ _ => split | |- exists _, _ => eexists end; reflexivity || exact I.
Qed.
Theorem C92_filters_closed_refuted : exists ops o ys, run created ops = Some (o, ys) /\ oLost o = 1%nat.
Proof.
  set (v := mkAv (Some (LT_VIDEO, "h264"%string)) 0 0 L_NONE [1; 100; 0; 31; 255; 225] 1 90000).
  exists [Open "a.mp4" (Streams [v; v] true []); Open "b.mp4" NoOpen]. do 2 eexists. split; vm_compute; reflexivity.
Qed.
Example C92_split_example :
  (forall w v, at_ clip w = Some v -> saysUnits (p1Si (openStream true v)) -> splits true v = true) /\
  exists us, List.length us = 2%nat /\ Forall (fun u => nal (body u)) us /\ roomy us /\
    let p := mkPkt 0 (Some 7) [] (Some (annexB us)) in
    let known := infosOf (map (openStream true) clip) in
    (forall s i, known s = Some i -> lastPTS i = 0) /\
    option_map snd (calls (fun _ t => t) 0 (fun _ => 100) (fun _ => true) 2 (opened known [p])) = Some (map (fun u => mkD 0 7 (framed u)) us).
Proof.
  split.
  - intros w v A U. unfold at_ in A. destruct (w <? 0); [discriminate|]. destruct (Z.to_nat w) as [|[|[|]]]; cbn in A; try (injection A as <-).
    + reflexivity.
    + destruct U as [k U]. discriminate.
    + destruct U as [k U]. discriminate.
    + destruct n; discriminate.
  - exists [mkU false [9; 16]; mkU true [101; 1; 2; 3; 4; 5]]. split; [reflexivity|]. split; [|split; [|split]].
    + repeat constructor; try discriminate; intros a b E; repeat (destruct a as [|? a]; [discriminate|]; injection E as _ E); destruct a; discriminate.
    + cbn. repeat split; [right|left]; [vm_compute; congruence|reflexivity].
    + intros s i. unfold infosOf. destruct (s <? 0); [discriminate|]. destruct (Z.to_nat s) as [|[|[|n]]]; cbn; try (intros [= <-]; reflexivity). destruct n; discriminate.
    + vm_compute. reflexivity.
Qed.

Print Assumptions C92_streams_listed.
Print Assumptions C92_failure_is_told.
Print Assumptions C92_failure_delivers_nothing.
Print Assumptions C92_careful_use_partial.
Print Assumptions C92_reopening_refuted.
Print Assumptions C92_unlisted_writer_refuted.
Print Assumptions C92_raw_video_refuted.
Print Assumptions C92_law_told_refuted.
Print Assumptions C92_unsigned_told_refuted.
Print Assumptions C92_deep_pcm_refuted.
Print Assumptions C92_framed_streams_are_split_partial.
Print Assumptions C92_one_unit_per_frame_refuted.
Print Assumptions C92_filters_lost_exactly.
Print Assumptions C92_filters_closed_partial.
Print Assumptions C92_filters_closed_refuted.
