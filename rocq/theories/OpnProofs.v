From Coq Require Import String ZArith List Bool Lia.
From Verif Require Import NamesModel AnnModel DmxModel OpnModel OpnSpec.
Import ListNotations.
Local Open Scope list_scope.
Local Open Scope Z_scope.

Lemma sub0 s : substring 0 0 s = EmptyString.
Proof. destruct s; reflexivity. Qed.
Lemma substring_prefix p s : String.eqb (substring 0 (String.length p) s) p = prefix p s.
Proof.
  revert s. induction p as [|a p IH]; intros s; [rewrite sub0; destruct s; reflexivity|].
  destruct s as [|b s]; [reflexivity|]. cbn [String.length substring prefix String.eqb].
  destruct (Ascii.ascii_dec a b) as [->|N].
  - rewrite Ascii.eqb_refl. apply IH.
  - destruct (Ascii.eqb_spec b a); [congruence|reflexivity].
Qed.
Lemma prefix_append p s : prefix p s = true -> exists t, s = append p t.
Proof.
  revert s. induction p as [|a p IH]; intros s H; [exists s; reflexivity|].
  destruct s as [|b s]; [discriminate|]. cbn [prefix] in H. destruct (Ascii.ascii_dec a b) as [->|]; [|discriminate].
  destruct (IH s H) as (t & ->). exists t. reflexivity.
Qed.
Lemma audio_codec s :
  getAudioCodecFromLibavString s =
  if ((s =? "pcm_alaw") || (s =? "pcm_mulaw"))%string then G711 else if prefix "pcm_u" s then PCMU
  else if (s =? "opus")%string then OPUS else if prefix "pcm_s" s then PCM else if (s =? "aac")%string then AAC
  else if (s =? "mp3")%string then MP3 else AC_NONE.
Proof.
  unfold getAudioCodecFromLibavString. change 5%nat with (String.length "pcm_u") at 1. change 5%nat with (String.length "pcm_s").
  rewrite !substring_prefix. reflexivity.
Qed.
Lemma sounds_codec s k : sounds s k -> getAudioCodecFromLibavString s = k.
Proof.
  intros [| | |r]; try reflexivity. rewrite audio_codec. cbn. destruct r; reflexivity.
Qed.
Lemma codec_sounds s :
  let k := getAudioCodecFromLibavString s in
  k = AC_NONE \/ sounds s k \/ (k = G711 /\ (s = "pcm_alaw" \/ s = "pcm_mulaw")%string) \/
    (k = PCMU /\ exists t, s = append "pcm_u" t).
Proof.
  cbv zeta. rewrite audio_codec. destruct (String.eqb_spec s "pcm_alaw"); [cbn [orb]; auto 6|].
  destruct (String.eqb_spec s "pcm_mulaw"); [cbn [orb]; auto 6|]. cbn [orb].
  destruct (prefix "pcm_u" s) eqn:U; [right; right; right; split; [reflexivity|]; apply prefix_append, U|].
  destruct (String.eqb_spec s "opus") as [->|]; [right; left; constructor|].
  destruct (prefix "pcm_s" s) eqn:P; [right; left; apply prefix_append in P; destruct P as (t & ->); constructor|].
  destruct (String.eqb_spec s "aac") as [->|]; [right; left; constructor|].
  destruct (String.eqb_spec s "mp3") as [->|]; [right; left; constructor|]. auto.
Qed.
Lemma pictures_codec s k : pictures s k -> getVideoCodecFromLibavString s = k.
Proof. intros []; reflexivity. Qed.
Lemma codec_pictures s : getVideoCodecFromLibavString s = VC_NONE \/ pictures s (getVideoCodecFromLibavString s).
Proof.
  unfold getVideoCodecFromLibavString.
  repeat match goal with |- context[(s =? ?x)%string] => destruct (String.eqb_spec s x) as [->|]; [right; constructor|] end. auto.
Qed.

(* What is told of a stream, whatever the filter. *)
Lemma told filt v : siInfo (p1Si (openStream filt v)) =
  match vDesc v with
  | Some (LT_AUDIO, s) => Some (audioInfo s v)
  | Some (LT_VIDEO, s) => Some (videoInfo s)
  | _ => None
  end.
Proof.
  unfold openStream. destruct (vDesc v) as [[[] s]|]; cbn [p1Si siInfo]; try reflexivity.
  - unfold audioInfo. destruct (getAudioCodecFromLibavString s); cbn [isH264 andb p1Si siInfo]; reflexivity.
  - unfold videoInfo. destruct (getVideoCodecFromLibavString s); cbn [isH264 andb p1Si siInfo defaultNal]; try reflexivity.
    destruct (4 <? _); cbn [p1Si siInfo]; reflexivity.
Qed.
Lemma told_data filt v : vDesc v <> None -> siExtra (p1Si (openStream filt v)) = vExtra v.
Proof.
  intros N. unfold openStream. destruct (vDesc v) as [[t s]|]; [|congruence].
  match goal with |- context[if ?c then _ else _] => destruct c end; reflexivity.
Qed.
Lemma audioInfo_is s v : exists f r c, audioInfo s v = IAudio (getAudioCodecFromLibavString s) f r c.
Proof. unfold audioInfo. destruct (getAudioCodecFromLibavString s); eauto. Qed.

Lemma tells_open filt v : tells v (p1Si (openStream filt v)).
Proof.
  pose proof (told filt v) as E. constructor.
  - unfold isSound, typeOf. rewrite E. destruct (vDesc v) as [[[] s]|]; split; try discriminate; try (intros (k & f & r & c & H); unfold videoInfo in *; discriminate).
    + reflexivity.
    + intros _. destruct (audioInfo_is s v) as (f & r & c & ->). eauto.
  - unfold isPicture, typeOf. rewrite E. destruct (vDesc v) as [[[] s]|]; split; try discriminate; try (intros (k & a & f & H)).
    + destruct (audioInfo_is s v) as (? & ? & ? & X). rewrite X in H. discriminate.
    + reflexivity.
    + intros _. unfold videoInfo. eauto.
    + discriminate.
    + discriminate.
  - apply told_data.
  - intros s k D S. rewrite E, D. pose proof (sounds_codec s k S) as K. unfold audioInfo. rewrite K.
    destruct S; eexists; (split; [reflexivity|]); (split; [congruence || reflexivity|]); intros X; try discriminate X.
    repeat match goal with |- _ /\ _ => split end; try (intros ->; reflexivity).
    destruct (vFmt v); cbn; congruence.
  - intros s k D S. rewrite E, D. unfold videoInfo. rewrite (pictures_codec s k S). eauto.
  - intros s k f r c D H. rewrite E, D in H. destruct (audioInfo_is s v) as (f' & r' & c' & X). rewrite X in H.
    injection H as <- _ _ _. apply codec_sounds.
  - intros s k a f D H. rewrite E, D in H. unfold videoInfo in H. injection H as <- _ _. apply codec_pictures.
Qed.

(* Which streams can be connected. *)
Lemma connectable_is filt v :
  match siInfo (p1Si (openStream filt v)) with
  | None => connectable v = false /\ rawVideo v = false
  | Some (IVideo RAW _ _) => rawVideo v = true
  | Some i => queueMade i = connectable v /\ rawVideo v = false
  end.
Proof.
  rewrite told. unfold connectable, rawVideo. destruct (vDesc v) as [[[] s]|]; cbn beta iota; auto.
  - unfold audioInfo. rewrite audio_codec. unfold pcmName.
    cbn [existsb]. rewrite !orb_false_r.
    destruct (String.eqb_spec s "pcm_alaw") as [->|]; [split; reflexivity|].
    destruct (String.eqb_spec s "pcm_mulaw") as [->|]; [split; reflexivity|].
    cbn [orb]. rewrite !orb_false_r.
    destruct (prefix "pcm_u" s) eqn:U.
    { apply prefix_append in U. destruct U as (t & ->). cbn. destruct (vFmt v), t; cbn; auto. }
    destruct (String.eqb_spec s "opus") as [->|]; [cbn; auto|].
    destruct (prefix "pcm_s" s) eqn:P.
    { apply prefix_append in P. destruct P as (t & ->). cbn. destruct (vFmt v), t; cbn; auto. }
    destruct (String.eqb_spec s "aac") as [->|]; [cbn; auto|].
    destruct (String.eqb_spec s "mp3") as [->|]; cbn; auto.
  - unfold videoInfo, getVideoCodecFromLibavString. cbn [existsb].
    destruct (String.eqb_spec s "h264") as [->|]; [split; reflexivity|].
    destruct (String.eqb_spec s "hevc") as [->|]; [split; reflexivity|].
    destruct (String.eqb_spec s "vp8") as [->|]; [split; reflexivity|].
    destruct (String.eqb_spec s "mjpeg") as [->|]; [split; reflexivity|].
    destruct (String.eqb_spec s "rawvideo") as [->|]; [reflexivity|]. split; reflexivity.
Qed.

(* The state after any history. *)
Lemma setURI_state o u a : exists f n,
  setURI o u a = (mkOpn u (map (openStream (filterOf a)) (streamsOf a)) (S (oGen o))
    match a with NoOpen => None | _ => Some (opened (infosOf (map (openStream (filterOf a)) (streamsOf a))) (packetsOf a)) end
    f n (oQueues o), opensWell a).
Proof.
  destruct a as [|src|l filt src]; cbn [setURI streamsOf filterOf map packetsOf opensWell]; eauto.
  destruct (filters false (oLost o) (map (openStream filt) l)) as [f n]. eauto.
Qed.

Lemma step_keeps o x o' y : step o x = Some (o', y) -> match x with Open _ _ => True | _ =>
  oUri o' = oUri o /\ oTable o' = oTable o /\ oGen o' = oGen o /\ oDx o' = oDx o /\ oFilter o' = oFilter o /\ oLost o' = oLost o end.
Proof.
  destruct x as [u a|w|w|w]; cbn [step]; [trivial| | |].
  - destruct (16 <=? _); [intros [= <- _]; auto 7|].
    destruct (queueOf w (oQueues o)); [intros [= <- _]; auto 7|].
    destruct (allocQueue o w) as [[]|]; [| |discriminate]; intros [= <- _]; cbn; auto 7.
  - intros [= <- _]. cbn. auto 7.
  - destruct (queueOf w (oQueues o)); [|intros [= <- _]; auto 7].
    destruct (Nat.eqb _ _); [|discriminate]. destruct (nth_error _ _); [|discriminate]. intros [= <- _]. auto 7.
Qed.

Definition shows (o : opn) (c : string * answer) : Prop :=
  oUri o = fst c /\ oTable o = map (openStream (filterOf (snd c))) (streamsOf (snd c)) /\
  oDx o = match snd c with NoOpen => None | a => Some (opened (infosOf (oTable o)) (packetsOf a)) end.
Lemma run_shows l : forall o c o' ys, shows o c -> run o l = Some (o', ys) -> shows o' (lastOpen c l).
Proof.
  induction l as [|x l IH]; intros o c o' ys S H; cbn [run] in H.
  - injection H as <- _. exact S.
  - destruct (step o x) as [[o1 y]|] eqn:E; [|discriminate]. destruct (run o1 l) as [[o2 zs]|] eqn:R; [|discriminate].
    injection H as <- <-. destruct x as [u a| | |]; cbn [lastOpen];
      try (refine (IH o1 c _ _ _ R); pose proof (step_keeps _ _ _ _ E) as K; cbv iota in K; destruct K as (K1 & K2 & K3 & K4 & _); unfold shows; rewrite K1, K2, K4; exact S).
    refine (IH o1 (u, a) _ _ _ R). cbn [step] in E. destruct (setURI_state o u a) as (f & n & X). rewrite X in E. injection E as <- _.
    unfold shows. cbn [oUri oTable oDx fst snd]. repeat split; destruct a; reflexivity.
Qed.

(* Careful histories. *)
Definition agree (o : opn) (filt : bool) (cur : list avstream) (q : list Z) : Prop :=
  oTable o = map (openStream filt) cur /\ map fst (oQueues o) = q /\ Forall (fun x => snd x = oGen o) (oQueues o) /\
  Forall (fun w => at_ cur w <> None) q.
Lemma at_nth filt cur w v : at_ cur w = Some v -> nth_error (map (openStream filt) cur) (Z.to_nat w) = Some (openStream filt v) /\ (w <? 0) = false.
Proof. unfold at_. destruct (w <? 0); [discriminate|]. intros H. split; [apply map_nth_error, H|reflexivity]. Qed.
Lemma queueOf_used w l : queueOf w l = None <-> used w (map fst l) = false.
Proof.
  unfold queueOf, used. induction l as [|[a g] l IH]; cbn [find map existsb fst]; [split; reflexivity|].
  rewrite (Z.eqb_sym w a). destruct (a =? w); cbn [option_map orb]; [split; discriminate|exact IH].
Qed.
Lemma queueOf_in w l g : queueOf w l = Some g -> In (w, g) l.
Proof.
  unfold queueOf. destruct (find _ l) as [[a b]|] eqn:F; [|discriminate]. intros [= <-]. apply find_some in F. destruct F as [I E].
  cbn [fst] in E. apply Z.eqb_eq in E. subst. exact I.
Qed.
Lemma careful_step o filt cur q x : agree o filt cur q -> careful cur q [x] ->
  let '(cur', q', w) := want1 cur q x in
  exists o' y filt', step o x = Some (o', y) /\ meets y w /\ agree o' filt' cur' q'.
Proof.
  intros (T & Q & G & L) [C _]. destruct x as [u a|w|w|w]; cbn [want1].
  - destruct (setURI_state o u a) as (f & n & X). cbn [step]. rewrite X. do 3 eexists. split; [reflexivity|]. split; [reflexivity|].
    subst q. destruct (oQueues o); [|discriminate]. repeat split; cbn; auto.
  - destruct C as (v & A & R). rewrite A. destruct (at_nth filt cur w v A) as [N P]. cbn [step]. rewrite <- Q, map_length.
    destruct (Nat.ltb_spec (List.length (oQueues o)) 16) as [B|B].
    2:{ cbn [andb]. replace (16 <=? Z.of_nat (List.length (oQueues o))) with true by (symmetry; apply Z.leb_le; lia).
        exists o, (Done false), filt. split; [reflexivity|]. split; [reflexivity|]. subst q. repeat split; assumption. }
    replace (16 <=? Z.of_nat (List.length (oQueues o))) with false by (symmetry; apply Z.leb_gt; lia).
    destruct (queueOf w (oQueues o)) as [g|] eqn:K.
    { destruct (used w (map fst (oQueues o))) eqn:U; [|apply queueOf_used in U; congruence].
      cbn [andb negb]. exists o, (Done false), filt. split; [reflexivity|]. split; [reflexivity|]. subst q. repeat split; assumption. }
    apply queueOf_used in K. rewrite K. cbn [andb negb]. unfold allocQueue. rewrite P, T, N.
    pose proof (connectable_is filt v) as Y.
    assert (exists b, match siInfo (p1Si (openStream filt v)) with None => Some false | Some (IVideo RAW _ _) => None | Some i => Some (queueMade i) end = Some b /\ b = connectable v) as (b & Eb & Cb).
    { destruct (siInfo (p1Si (openStream filt v))) as [[k f r c|[] a f]|]; try (destruct Y as [Y1 Y2]; try rewrite Y1; eauto; fail); congruence. }
    rewrite Eb, Cb. destruct (connectable v).
    + do 3 eexists. split; [reflexivity|]. split; [reflexivity|]. subst q. repeat split; cbn [oTable oQueues map fst oGen]; try assumption.
      * constructor; [reflexivity|exact G].
      * constructor; [congruence|exact L].
    + exists o, (Done false), filt. split; [reflexivity|]. split; [reflexivity|]. subst q. repeat split; assumption.
  - cbn [step]. do 3 eexists. split; [reflexivity|]. split; [reflexivity|]. subst q. repeat split; cbn [oTable oQueues oGen]; [exact T| | |].
    + clear. induction (oQueues o) as [|[a g] l IH]; cbn [filter map fst]; [reflexivity|]. destruct (negb (a =? w)); cbn [map fst]; rewrite IH; reflexivity.
    + apply incl_Forall with (oQueues o); [apply incl_filter|exact G].
    + apply incl_Forall with (map fst (oQueues o)); [apply incl_filter|exact L].
  - cbn [step]. destruct (queueOf w (oQueues o)) as [g|] eqn:K.
    + destruct (used w q) eqn:U; [|subst q; apply queueOf_used in U; congruence].
      apply queueOf_in in K. rewrite Forall_forall in G. pose proof (G _ K) as Gg. cbn [snd] in Gg. subst g. rewrite Nat.eqb_refl.
      assert (at_ cur w <> None) as A. { rewrite Forall_forall in L. apply L. rewrite <- Q. apply (in_map fst) in K. exact K. }
      destruct (at_ cur w) as [v|] eqn:A'; [|congruence]. destruct (at_nth filt cur w v A') as [N _]. rewrite T, N.
      exists o, (Info (p1Si (openStream filt v))), filt. split; [reflexivity|]. split; [apply tells_open|].
      repeat split; [exact T|exact Q|apply Forall_forall; exact G|exact L].
    + apply queueOf_used in K. rewrite Q in K. rewrite K. exists o, (Done false), filt. split; [reflexivity|]. split; [reflexivity|]. repeat split; assumption.
Qed.
Lemma careful_run l : forall o filt cur q, agree o filt cur q -> careful cur q l ->
  exists o' ys, run o l = Some (o', ys) /\ Forall2 meets ys (wants cur q l).
Proof.
  induction l as [|x l IH]; intros o filt cur q A C; [exists o, []; split; [reflexivity|constructor]|].
  destruct C as [C C']. pose proof (careful_step o filt cur q x A) as S. cbn [careful wants run] in *.
  destruct (want1 cur q x) as [[cur' q'] w]. destruct S as (o1 & y & filt' & E & M & A'); [auto|].
  destruct (IH o1 filt' cur' q' A' C') as (o2 & ys & R & F). rewrite E, R. exists o2, (y :: ys). split; [reflexivity|]. constructor; assumption.
Qed.

(* The filters. *)
Lemma filter_made filt v : p1Filter (openStream filt v) = if avcc v then Some filt else None.
Proof.
  unfold openStream, avcc. destruct (vDesc v) as [[[] s]|]; try reflexivity.
  - destruct (audioInfo_is s v) as (f & r & c & ->). reflexivity.
  - unfold videoInfo, getVideoCodecFromLibavString. destruct (String.eqb s "h264"); cbn [isH264 andb].
    + destruct (4 <? _); cbn [p1Filter andb]; [|reflexivity]. destruct (nth 0 (vExtra v) 0 =? 0); reflexivity.
    + repeat match goal with |- context[(s =? ?x)%string] => destruct (String.eqb s x) end; reflexivity.
Qed.
Lemma filters_count filt l : forall cur lost,
  filters cur lost (map (openStream filt) l) =
  let n := List.length (filter avcc l) in
  (if Nat.eqb n 0 then cur else filt, (lost + (if Nat.eqb n 0 then 0 else (if cur then 1 else 0) + (if filt then pred n else 0)))%nat).
Proof.
  cbv zeta. induction l as [|v l IH]; intros cur lost; [cbn; rewrite Nat.add_0_r; reflexivity|].
  cbn [map filters filter]. rewrite filter_made. destruct (avcc v); [|apply IH].
  rewrite IH. cbn [List.length Nat.eqb]. destruct (List.length (filter avcc l)) as [|n]; cbn [Nat.eqb pred]; destruct cur, filt; f_equal; lia.
Qed.
Lemma lost_run l : forall o o' ys, run o l = Some (o', ys) -> oLost o' = (oLost o + surplus l)%nat.
Proof.
  induction l as [|x l IH]; intros o o' ys H; cbn [run] in H; [injection H as <- _; cbn; lia|].
  destruct (step o x) as [[o1 y]|] eqn:E; [|discriminate]. destruct (run o1 l) as [[o2 zs]|] eqn:R; [|discriminate].
  injection H as <- <-. rewrite (IH _ _ _ R). destruct x as [u a| | |]; cbn [surplus];
    try (pose proof (step_keeps _ _ _ _ E) as K; cbv iota in K; destruct K as (_ & _ & _ & _ & _ & K); rewrite K; reflexivity).
  cbn [step] in E. destruct a as [|src|l0 filt src]; cbn [setURI] in E; try (injection E as <- _; cbn; lia).
  rewrite filters_count in E. cbv zeta in E. injection E as <- _. cbn [oLost]. unfold beyond. cbn [filterOf streamsOf].
  destruct (List.length (filter avcc l0)), filt; cbn [Nat.eqb pred]; lia.
Qed.
