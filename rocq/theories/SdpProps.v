(* C51: a session requested by its streams is described as requested.
   C52: renaming the description of a source changes only its name. *)
From Coq Require Import Ascii String ZArith List Bool Lia.
From Verif Require Import JsonModel CtlModel SdpModel SdpSpec SdpProofs.
Import ListNotations.
Local Open Scope list_scope.
Local Open Scope Z_scope.

(* ---------------- C51 ---------------- *)

(* The stream description [m] is the one stream [s] asks for. *)
Definition describes (s : sub) (m : media) : Prop :=
  exists pt, In (sCodec s, pt) codecs /\
    m = wanted (sMedium s) (sCodec s) pt (sBandwidth s) (sFreq s) (sPort s) (sChannels s).

(* A request whose names fit in a description and whose numbers are not
   negative. *)
Definition fits (s : sub) : Prop :=
  (exists pt, In (sCodec s, pt) codecs) /\
  lacks " " (sMedium s) /\ lacks "010" (sMedium s) /\
  0 <= sPort s < 4294967296 /\ 0 <= sBandwidth s < 4294967296 /\
  0 <= sFreq s < 4294967296 /\ 0 <= sChannels s < 4294967296.

Theorem C51_described_partial : forall id l, lacks "010" id -> Forall fits l ->
  exists text ms, requestSDP id l = Some text /\
    readSdp text = Some (mkDescr (Some id) ms) /\ Forall2 describes l ms.
Proof.
  intros id l N F. unfold requestSDP. rewrite sess_text, addSubs_lines.
  assert (L : exists x, reqLines l = Some x /\ Forall (lacks LF) x /\
    forall d, exists ms, readLines d x = Some (mkDescr (dName d) (dMedia d ++ ms)) /\ Forall2 describes l ms).
  { induction F as [|s l ((pt & K) & N1 & N2 & B1 & B2 & B3 & B4) F IH].
    - exists []. split; [reflexivity|]. split; [constructor|]. intros d. exists [].
      rewrite app_nil_r. split; [destruct d; reflexivity|constructor].
    - destruct IH as (x & E & C & R). cbn [reqLines].
      destruct (payload_known _ _ K) as (P & B). rewrite P.
      destruct (Z.ltb_spec pt 0); [lia|]. rewrite E.
      eexists. split; [reflexivity|]. split.
      + apply Forall_app. split; [apply subLines_clean; assumption|exact C].
      + intros d. rewrite readLines_app, read_sub by assumption.
        destruct (R (mkDescr (dName d) (dMedia d ++
          [wanted (sMedium s) (sCodec s) pt (sBandwidth s) (sFreq s) (sPort s) (sChannels s)]))) as (ms & E2 & D2).
        eexists. split.
        * rewrite E2. cbn [dName dMedia]. rewrite <- app_assoc. reflexivity.
        * cbn [app]. constructor; [exists pt; auto|exact D2]. }
  destruct L as (x & -> & C & R).
  destruct (R (mkDescr (Some id) [])) as (ms & E & D). cbn [dName dMedia app] in E.
  exists (lf (sessLines id ++ x)), ms. split; [reflexivity|]. split; [|exact D].
  unfold readSdp. rewrite linesLF_lf.
  - rewrite readLines_app. unfold sessLines. cbn [readLines].
    rewrite (readLine_skip _ (lit "v=0")) by (cbn [In]; tauto).
    rewrite (readLine_skip _ (lit "o=- 0 0 IN IP4 127.0.0.1")) by (cbn [In]; tauto).
    rewrite readLine_name.
    rewrite (readLine_skip _ (lit "i=" ++ lit "this is a test")) by (cbn [In]; tauto).
    rewrite (readLine_skip _ (lit "t= 0 0")) by (cbn [In]; tauto).
    cbn [dMedia]. exact E.
  - apply Forall_app. split; [|exact C]. unfold sessLines.
    repeat apply Forall_cons; try apply Forall_nil; try lit_lacks.
    apply lacks_app; [lit_lacks|exact N].
Qed.

(* A request is refused exactly when it names a codec that is not known. *)
Theorem C51_refused : forall id l,
  requestSDP id l = None <-> Exists (fun s => forall pt, ~ In (sCodec s, pt) codecs) l.
Proof.
  intros id l. unfold requestSDP. rewrite sess_text, addSubs_lines.
  induction l as [|s l IH]; cbn [reqLines].
  - split; [discriminate|]. intros H; inversion H.
  - assert (K : {pt | In (sCodec s, pt) codecs} + {forall pt, ~ In (sCodec s, pt) codecs}).
    { destruct (in_dec (list_eq_dec ascii_dec) (sCodec s) (map fst codecs)) as [I|I].
      - left. unfold codecs in *. cbn [map fst In] in I.
        destruct (list_eq_dec ascii_dec (sCodec s) (txt "pcmu")) as [E|E]; [exists 97; rewrite E; cbn [In]; tauto|].
        destruct (list_eq_dec ascii_dec (sCodec s) (txt "opus")) as [E2|E2]; [exists 97; rewrite E2; cbn [In]; tauto|].
        destruct (list_eq_dec ascii_dec (sCodec s) (txt "pcm")) as [E3|E3]; [exists 97; rewrite E3; cbn [In]; tauto|].
        destruct (list_eq_dec ascii_dec (sCodec s) (txt "MPEG4-GENERIC")) as [E4|E4]; [exists 97; rewrite E4; cbn [In]; tauto|].
        destruct (list_eq_dec ascii_dec (sCodec s) (txt "mp3")) as [E5|E5]; [exists 14; rewrite E5; cbn [In]; tauto|].
        exists 96. destruct I as [I|[I|[I|[I|[I|[I|[]]]]]]]; try congruence. rewrite <- I. cbn [In]. tauto.
      - right. intros pt H. apply I. apply (in_map fst) in H. exact H. }
    destruct K as [(pt & K)|K].
    + destruct (payload_known _ _ K) as (P & B). rewrite P.
      destruct (Z.ltb_spec pt 0); [lia|].
      destruct (reqLines l) as [x|].
      * split; [discriminate|]. intros H1. apply Exists_cons in H1. destruct H1 as [H2|H2].
        -- destruct (H2 pt K).
        -- apply IH in H2. discriminate.
      * split; [|reflexivity]. intros _. apply Exists_cons_tl. apply IH. reflexivity.
    + rewrite (payload_unknown _ K). cbn.
      split; [|reflexivity]. intros _. apply Exists_cons_hd. exact K.
Qed.

(* The sampling rate and channels asked for an mp3 stream are not in the
   description at all. *)
Theorem C51_mp3_refuted : forall id m b p f f' c c',
  requestSDP id [mkSub m (lit "mp3") b f p c] = requestSDP id [mkSub m (lit "mp3") b f' p c'].
Proof. intros. reflexivity. Qed.

(* Names are copied without any check: one requested stream may be read as
   two. *)
Theorem C51_inject_refuted : exists s text d,
  requestSDP (lit "id") [s] = Some text /\ readSdp text = Some d /\ length (dMedia d) = 2%nat.
Proof.
  exists (mkSub (lit "audio 5000 RTP/AVP 0" ++ [LF] ++ lit "m=video") (lit "H264") 1000 90000 6000 0).
  do 2 eexists. split; [reflexivity|]. split; [vm_compute; reflexivity|]. reflexivity.
Qed.

(* A negative number is announced as a large one. *)
Theorem C51_negative_refuted : exists text d,
  requestSDP (lit "id") [mkSub (lit "video") (lit "H264") 1000 90000 (-1) 0] = Some text /\
  readSdp text = Some d /\ map mPort (dMedia d) = [4294967295].
Proof. do 2 eexists. split; [reflexivity|]. split; [vm_compute; reflexivity|]. reflexivity. Qed.

Example C51_case :
  let l := [mkSub (lit "video") (lit "H264") 5000 90000 6004 0;
            mkSub (lit "audio") (lit "MPEG4-GENERIC") 192 48000 6006 2] in
  Forall fits l /\ lacks "010" (lit "8723642") /\
  exists text d, requestSDP (lit "8723642") l = Some text /\ readSdp text = Some d /\
    map mPort (dMedia d) = [6004; 6006] /\
    map mMap (dMedia d) = [Some (96, txt "H264", 90000, None); Some (97, txt "MPEG4-GENERIC", 48000, Some 2)].
Proof.
  cbv zeta. split; [|split].
  - apply Forall_cons; [|apply Forall_cons; [|apply Forall_nil]]; unfold fits; cbn [sCodec sMedium sPort sBandwidth sFreq sChannels].
    + split; [exists 96; cbn; tauto|]. repeat split; try lia; lit_lacks.
    + split; [exists 97; cbn; tauto|]. repeat split; try lia; lit_lacks.
  - lit_lacks.
  - do 2 eexists. split; [reflexivity|]. split; [vm_compute; reflexivity|]. split; reflexivity.
Qed.

(* ---------------- C52 ---------------- *)

(* When the source ends its lines with CR LF, the description handed on has
   the same lines in the same order, with only the name changed. *)
Theorem C52_rename_partial : forall l name, Forall isLine l -> lacks "010" name -> lacks "013" name ->
  linesAny [] (modifySessionName (crlf l) name) = renamed name l.
Proof.
  intros l name F N1 N2. unfold modifySessionName. rewrite getlines_crlf by exact F.
  induction F as [|x l (NE & L1 & L2) F IH]; [reflexivity|].
  cbn [map flat_map renamed]. unfold modifyLine at 1.
  rewrite startsWith_after. change (lit "s=") with (txt "s=").
  destruct (after (txt "s=") x) as [r|] eqn:A.
  - rewrite (after_cr _ _ _ A). rewrite <- !app_assoc.
    replace (txt "s=" ++ name ++ [LF] ++ flat_map (modifyLine name) (map (fun l0 => l0 ++ [CR]) l))
      with ((txt "s=" ++ name) ++ LF :: flat_map (modifyLine name) (map (fun l0 => l0 ++ [CR]) l))
      by (rewrite <- app_assoc; reflexivity).
    rewrite linesAny_lf.
    + unfold renamed in IH. cbn [app]. rewrite IH. reflexivity.
    + left. reflexivity.
    + apply lacks_app; [lit_lacks|exact N1].
    + apply lacks_app; [lit_lacks|exact N2].
    + discriminate.
  - rewrite (after_no_cr (txt "s=") x ltac:(lit_lacks) A). rewrite <- app_assoc. cbn [app].
    rewrite linesAny_lf; [|right; reflexivity|exact L1|exact L2|exact NE].
    unfold renamed in IH. cbn [app]. rewrite IH. reflexivity.
Qed.

(* When it ends them with LF only, everything before the name is run
   together with it, and everything after it too. *)
Theorem C52_rename_refuted : forall a r b name,
  Forall (fun x => isLine x /\ after (txt "s=") x = None) a ->
  Forall (fun x => isLine x /\ after (txt "s=") x = None) b -> b <> [] ->
  isLine (txt "s=" ++ r) -> lacks "010" name -> lacks "013" name ->
  linesAny [] (modifySessionName (lf (a ++ [txt "s=" ++ r] ++ b)) name)
  = [concat a ++ txt "s=" ++ name; concat b].
Proof.
  intros a r b name Fa Fb NE (_ & Lr & _) N1 N2.
  unfold modifySessionName. rewrite getlines_is, linesLF_lf.
  - rewrite !flat_map_app. cbn [flat_map]. rewrite app_nil_r.
    assert (M : forall l : list str, Forall (fun x => isLine x /\ after (txt "s=") x = None) l ->
      flat_map (modifyLine name) l = concat l).
    { induction 1 as [|x l (_ & A) F IH]; [reflexivity|]. cbn [flat_map concat].
      rewrite IH. unfold modifyLine. rewrite startsWith_after. change (lit "s=") with (txt "s="). rewrite A. reflexivity. }
    pose proof (M a Fa) as Ma. pose proof (M b Fb) as Mb. unfold str, text in *. rewrite Ma, Mb. unfold modifyLine. rewrite startsWith_after.
    change (lit "s=") with (txt "s="). rewrite after_app.
    assert (C : forall c l, (forall x, In x l -> lacks c x) -> lacks c (concat l)).
    { intros c l H I. apply in_concat in I. destruct I as (x & Ix & Ic). exact (H x Ix Ic). }
    replace (concat a ++ (txt "s=" ++ name ++ [LF]) ++ concat b)
      with ((concat a ++ txt "s=" ++ name) ++ LF :: concat b) by (rewrite <- !app_assoc; reflexivity).
    rewrite Forall_forall in Fa, Fb.
    rewrite linesAny_lf.
    + cbn [app]. f_equal.
      assert (NC : concat b <> []).
      { destruct b as [|x b]; [congruence|]. destruct (Fb x (or_introl eq_refl)) as ((X & _) & _).
        cbn [concat]. destruct x; [congruence|discriminate]. }
      assert (T : forall l cur, lacks LF l -> lacks CR l -> cur ++ l <> [] -> linesAny cur l = [cur ++ l]).
      { clear. induction l as [|c l IH]; intros cur A B H; cbn [linesAny].
        - rewrite app_nil_r in *. destruct cur; [congruence|reflexivity].
        - destruct (Ascii.eqb_spec c "010") as [E|E]; [exfalso; apply A; left; exact E|].
          destruct (Ascii.eqb_spec c "013") as [E2|E2]; [exfalso; apply B; left; exact E2|].
          cbn [orb]. rewrite IH.
          + rewrite <- app_assoc. reflexivity.
          + intros I; apply A; right; exact I.
          + intros I; apply B; right; exact I.
          + destruct cur; discriminate. }
      apply (T (concat b) []); [| |exact NC]; apply C; intros x Ix; destruct (Fb x Ix) as ((_ & X & Y) & _); assumption.
    + left. reflexivity.
    + apply lacks_app; [apply C; intros x Ix; destruct (Fa x Ix) as ((_ & X & Y) & _); assumption|].
      apply lacks_app; [lit_lacks|exact N1].
    + apply lacks_app; [apply C; intros x Ix; destruct (Fa x Ix) as ((_ & X & Y) & _); assumption|].
      apply lacks_app; [lit_lacks|exact N2].
    + cbn [app]. destruct (concat a); discriminate.
  - apply Forall_app. split; [|apply Forall_cons].
    + eapply Forall_impl; [|exact Fa]. intros x ((_ & X & _) & _). exact X.
    + exact Lr.
    + eapply Forall_impl; [|exact Fb]. intros x ((_ & X & _) & _). exact X.
Qed.

Ltac is_line := split; [discriminate|split; lit_lacks].

Example C52_case :
  let l := map txt ["v=0"; "o=- 1 1 IN IP4 10.0.0.1"; "s=Camera"; "t=0 0"; "m=video 0 RTP/AVP 96"]%string in
  Forall isLine l /\
  linesAny [] (modifySessionName (crlf l) (txt "42")) =
  map txt ["v=0"; "o=- 1 1 IN IP4 10.0.0.1"; "s=42"; "t=0 0"; "m=video 0 RTP/AVP 96"]%string.
Proof.
  cbv zeta. split; [|vm_compute; reflexivity].
  cbn [map]. repeat (apply Forall_cons; [is_line|]). apply Forall_nil.
Qed.

Example C52_refuted_case :
  let a := [txt "v=0"] in let b := map txt ["t=0 0"; "m=video 0 RTP/AVP 96"]%string in
  Forall (fun x => isLine x /\ after (txt "s=") x = None) a /\
  Forall (fun x => isLine x /\ after (txt "s=") x = None) b /\
  linesAny [] (modifySessionName (lf (a ++ [txt "s=" ++ txt "Camera"] ++ b)) (txt "42")) =
  map txt ["v=0s=42"; "t=0 0m=video 0 RTP/AVP 96"]%string.
Proof.
  cbv zeta. split; [|split; [|vm_compute; reflexivity]].
  - apply Forall_cons; [split; [is_line|reflexivity]|apply Forall_nil].
  - cbn [map]. repeat (apply Forall_cons; [split; [is_line|reflexivity]|]). apply Forall_nil.
Qed.

Print Assumptions C51_described_partial.
Print Assumptions C51_refused.
Print Assumptions C51_mp3_refuted.
Print Assumptions C51_inject_refuted.
Print Assumptions C51_negative_refuted.
Print Assumptions C52_rename_partial.
Print Assumptions C52_rename_refuted.
