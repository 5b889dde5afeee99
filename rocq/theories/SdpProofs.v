From Coq Require Import Ascii String ZArith List Bool Lia.
From Verif Require Import JsonModel CtlModel CtlProofs SdpModel SdpSpec.
Import ListNotations.
Local Open Scope list_scope.
Local Open Scope Z_scope.

(* ---- lines ---- *)

Lemma linesLF_app l : forall cur r, lacks LF l ->
  linesLF cur (l ++ LF :: r) = (cur ++ l) :: linesLF [] r.
Proof.
  induction l as [|c l IH]; intros cur r N; cbn [app linesLF].
  - rewrite app_nil_r. reflexivity.
  - destruct (Ascii.eqb_spec c "010") as [E|E].
    + exfalso. apply N. left. exact E.
    + rewrite IH by (intros I; apply N; right; exact I). rewrite <- app_assoc. reflexivity.
Qed.

Lemma linesLF_lf ls : Forall (lacks LF) ls -> linesLF [] (lf ls) = ls.
Proof.
  induction 1 as [|l ls N F IH]; [reflexivity|].
  change (lf (l :: ls)) with ((l ++ [LF]) ++ lf ls). rewrite <- app_assoc. cbn [app].
  rewrite linesLF_app by exact N. rewrite IH. reflexivity.
Qed.

Lemma getlines_is s : forall cur, getlines cur s = linesLF cur s.
Proof. induction s as [|c s IH]; intros cur; cbn [getlines linesLF]; [reflexivity|]. unfold is, LF. rewrite !IH. reflexivity. Qed.

Lemma lf_app a b : lf (a ++ b) = lf a ++ lf b.
Proof. apply flat_map_app. Qed.

(* ---- numbers ---- *)

Lemma number_snoc s : forall acc c d v, number acc s = Some v ->
  (0 <= d <= 9) -> c = ascii_of_N (48 + Z.to_N d) -> number acc (s ++ [c]) = Some (10 * v + d).
Proof.
  induction s as [|x s IH]; intros acc c d v H D C; cbn [app number] in *.
  - injection H as <-. subst c. rewrite N_ascii_embedding by lia.
    replace (Z.of_N (48 + Z.to_N d)) with (48 + d) by lia.
    replace (48 <=? 48 + d) with true by (symmetry; apply Z.leb_le; lia).
    replace (48 + d <=? 57) with true by (symmetry; apply Z.leb_le; lia).
    cbn [andb]. f_equal. lia.
  - destruct ((48 <=? Z.of_N (N_of_ascii x)) && (Z.of_N (N_of_ascii x) <=? 57)); [|discriminate].
    eapply IH; eauto.
Qed.

Lemma number_digits s z : CtlSpec.digits s z -> number 0 s = Some z.
Proof.
  induction 1 as [|s z d D IH R]; [reflexivity|].
  eapply number_snoc; eauto.
Qed.

Lemma unsigned_digits z : CtlSpec.digits (unsignedText z) (z mod 4294967296) /\ unsignedText z <> [].
Proof.
  unfold unsignedText. assert (B := Z.mod_pos_bound z 4294967296 ltac:(lia)).
  destruct (decimal_digits 20 (z mod 4294967296)) as (D & N).
  { change (10 ^ Z.of_nat 20) with 100000000000000000000. lia. }
  split; [exact D|]. apply N. discriminate.
Qed.

Lemma num_unsigned z : num (unsignedText z) = Some (z mod 4294967296).
Proof.
  destruct (unsigned_digits z) as (D & N). unfold num.
  destruct (unsignedText z) as [|c t] eqn:E; [destruct (N eq_refl)|].
  apply number_digits. exact D.
Qed.

Lemma unsigned_lacks c z : digit c = None -> lacks c (unsignedText z).
Proof.
  intros N I. destruct (unsigned_digits z) as (D & _).
  destruct (digits_spec _ _ D) as (_ & _ & F). rewrite Forall_forall in F. exact (F c I N).
Qed.

(* ---- fields ---- *)

Lemma fields_one sep l : forall cur, lacks sep l -> fields sep cur l = [cur ++ l].
Proof.
  induction l as [|c l IH]; intros cur N; cbn [fields].
  - rewrite app_nil_r. reflexivity.
  - destruct (Ascii.eqb_spec c sep) as [E|E].
    + exfalso. apply N. left. exact E.
    + rewrite IH by (intros I; apply N; right; exact I). rewrite <- app_assoc. reflexivity.
Qed.

Lemma fields_app sep l : forall cur r, lacks sep l ->
  fields sep cur (l ++ sep :: r) = (cur ++ l) :: fields sep [] r.
Proof.
  induction l as [|c l IH]; intros cur r N; cbn [app fields].
  - rewrite Ascii.eqb_refl, app_nil_r. reflexivity.
  - destruct (Ascii.eqb_spec c sep) as [E|E].
    + exfalso. apply N. left. exact E.
    + rewrite IH by (intros I; apply N; right; exact I). rewrite <- app_assoc. reflexivity.
Qed.

Lemma after_app p s : after p (p ++ s) = Some s.
Proof. induction p as [|c p IH]; cbn [app after]; [reflexivity|]. rewrite Ascii.eqb_refl. exact IH. Qed.

Lemma lacks_app c a b : lacks c a -> lacks c b -> lacks c (a ++ b).
Proof. unfold lacks. intros A B I. apply in_app_or in I. tauto. Qed.

Ltac lit_lacks := let I := fresh in intros I; cbn in I; repeat (destruct I as [I|I]; [discriminate I|]); destruct I.

(* ---- the lines of a request ---- *)

Definition subLines (s : sub) (pt : Z) : list str :=
  [lit "m=" ++ sMedium s ++ lit " " ++ unsignedText (sPort s) ++ lit " RTP/AVP " ++ unsignedText pt;
   lit "c=IN IP4 127.0.0.1";
   lit "b=AS:" ++ unsignedText (sBandwidth s)] ++
  (if (pt mod 4294967296) <? 96 then []
   else
     [lit "a=rtpmap:" ++ unsignedText pt ++ lit " " ++ sCodec s ++ lit "/" ++ unsignedText (sFreq s) ++
      (if (sChannels s mod 4294967296) =? 0 then [] else lit "/" ++ unsignedText (sChannels s))] ++
     (if streq (sCodec s) (lit "H264") then [lit "a=fmtp:" ++ unsignedText pt ++ lit " packetization-mode=1"] else []) ++
     (if streq (sCodec s) (lit "MPEG4-GENERIC") && streq (sMedium s) (lit "audio")
      then [lit "a=fmtp:" ++ unsignedText pt ++
            lit " streamtype=5;profile-level-id=1;mode=AAC-hbr;sizelength=13;indexlength=3;indexdeltalength=3"]
      else [])).

Lemma lf_one l : lf [l] = l ++ [LF].
Proof. unfold lf. cbn [flat_map]. rewrite app_nil_r. reflexivity. Qed.

Lemma lf_cons l r : lf (l :: r) = l ++ [LF] ++ lf r.
Proof. unfold lf. cbn [flat_map]. rewrite <- app_assoc. reflexivity. Qed.

Lemma sub_text s pt : makeSubsessionSDP (sMedium s) pt (sCodec s) (sBandwidth s) (sFreq s) (sPort s) (sChannels s)
  = lf (subLines s pt).
Proof.
  unfold makeSubsessionSDP, subLines.
  generalize (unsignedText (sPort s)) (unsignedText pt) (unsignedText (sBandwidth s)) (unsignedText (sFreq s)) (unsignedText (sChannels s)).
  intros A B C D E.
  rewrite lf_app, !lf_cons. change (lf []) with (@nil ascii).
  rewrite !app_nil_r, <- !app_assoc.
  repeat f_equal.
  destruct (pt mod 4294967296 <? 96); [reflexivity|].
  rewrite !lf_app, lf_one, <- !app_assoc.
  repeat f_equal.
  - destruct (streq (sCodec s) (lit "H264")); [|reflexivity]. rewrite lf_one, <- !app_assoc. reflexivity.
  - destruct (streq (sCodec s) (lit "MPEG4-GENERIC") && streq (sMedium s) (lit "audio")); [|reflexivity].
    rewrite lf_one, <- !app_assoc. reflexivity.
Qed.

Definition sessLines (id : str) : list str :=
  [lit "v=0"; lit "o=- 0 0 IN IP4 127.0.0.1"; lit "s=" ++ id; lit "i=" ++ lit "this is a test"; lit "t= 0 0"].

Lemma sess_text id : makeSessionSDP id (lit "this is a test") = lf (sessLines id).
Proof.
  unfold makeSessionSDP, sessLines. rewrite !lf_cons. change (lf []) with (@nil ascii).
  rewrite app_nil_r, <- !app_assoc. reflexivity.
Qed.

Fixpoint reqLines (l : list sub) : option (list str) :=
  match l with
  | [] => Some []
  | s :: r =>
    if getPayloadFromCodec (sCodec s) <? 0 then None
    else match reqLines r with
         | Some x => Some (subLines s (getPayloadFromCodec (sCodec s)) ++ x)
         | None => None
         end
  end.

Lemma addSubs_lines l : forall ls, addSubs (lf ls) l =
  match reqLines l with Some x => Some (lf (ls ++ x)) | None => None end.
Proof.
  induction l as [|s l IH]; intros ls; cbn [addSubs reqLines].
  - rewrite app_nil_r. reflexivity.
  - destruct (getPayloadFromCodec (sCodec s) <? 0); [reflexivity|].
    rewrite sub_text, <- lf_app, IH.
    destruct (reqLines l) as [x|]; [|reflexivity]. rewrite app_assoc. reflexivity.
Qed.

(* ---- reading them ---- *)

Lemma payload_known c pt : In (c, pt) codecs -> getPayloadFromCodec c = pt /\ 0 <= pt < 100.
Proof.
  unfold codecs. intros H. cbn [In] in H.
  repeat (destruct H as [H|H]; [injection H as <- <-; split; [vm_compute; reflexivity|lia]|]). destruct H.
Qed.

Lemma payload_unknown c : (forall pt, ~ In (c, pt) codecs) -> getPayloadFromCodec c = -1.
Proof.
  intros H. unfold getPayloadFromCodec.
  assert (K : forall s v, In (txt s, v) codecs -> streq c (lit s) = false).
  { intros s v I. unfold streq. destruct list_eq_dec as [->|]; [|reflexivity]. destruct (H v I). }
  rewrite (K "pcmu"%string 97), (K "opus"%string 97), (K "pcm"%string 97), (K "MPEG4-GENERIC"%string 97),
    (K "mp3"%string 14), (K "H264"%string 96); [reflexivity|unfold codecs; cbn [In]; tauto..].
Qed.

Lemma codec_clean c pt : In (c, pt) codecs -> lacks LF c /\ lacks " " c /\ lacks "/" c.
Proof.
  unfold codecs. intros H. cbn [In] in H.
  repeat (destruct H as [H|H]; [injection H as <- <-; split; [lit_lacks|split; lit_lacks]|]). destruct H.
Qed.

Lemma readLine_name d n : readLine d (lit "s=" ++ n) = Some (mkDescr (Some n) (dMedia d)).
Proof. unfold readLine. change (lit "s=") with (txt "s="). rewrite after_app. reflexivity. Qed.

Lemma readLine_skip d l : In l [lit "v=0"; lit "o=- 0 0 IN IP4 127.0.0.1"; lit "i=" ++ lit "this is a test"; lit "t= 0 0"; lit "c=IN IP4 127.0.0.1"] ->
  readLine d l = Some d.
Proof.
  cbn [In]. intros H. repeat (destruct H as [<-|H]; [destruct d; reflexivity|]). destruct H.
Qed.

Lemma readLine_media d m p pt : lacks " " m ->
  readLine d (lit "m=" ++ m ++ lit " " ++ unsignedText p ++ lit " RTP/AVP " ++ unsignedText pt)
  = Some (mkDescr (dName d) (dMedia d ++
      [mkMedia m (p mod 4294967296) (txt "RTP/AVP") (pt mod 4294967296) None None None])).
Proof.
  intros N. unfold readLine.
  replace (after (txt "s=") (lit "m=" ++ m ++ lit " " ++ unsignedText p ++ lit " RTP/AVP " ++ unsignedText pt))
    with (@None text) by reflexivity.
  change (lit "m=") with (txt "m="). rewrite after_app.
  unfold readMedia. change (lit " ") with [" "%char].
  cbn [app]. rewrite fields_app by exact N.
  change (lit " RTP/AVP ") with (" "%char :: (txt "RTP/AVP" ++ [" "%char])). cbn [app].
  rewrite fields_app by (apply unsigned_lacks; reflexivity).
  rewrite <- app_assoc. cbn [app]. rewrite fields_app by lit_lacks.
  rewrite fields_one by (apply unsigned_lacks; reflexivity). cbn [app].
  rewrite !num_unsigned. reflexivity.
Qed.

Lemma lastMedia_snoc f n l m : lastMedia f (mkDescr n (l ++ [m])) = Some (mkDescr n (l ++ [f m])).
Proof.
  unfold lastMedia; cbn [dMedia dName]. rewrite rev_app_distr. cbn [rev app].
  rewrite rev_involutive. reflexivity.
Qed.

Lemma readLine_bw n l m b :
  readLine (mkDescr n (l ++ [m])) (lit "b=AS:" ++ unsignedText b)
  = Some (mkDescr n (l ++ [mkMedia (mMedium m) (mPort m) (mProto m) (mPt m) (Some (b mod 4294967296)) (mMap m) (mFmtp m)])).
Proof.
  unfold readLine.
  replace (after (txt "s=") (lit "b=AS:" ++ unsignedText b)) with (@None text) by reflexivity.
  replace (after (txt "m=") (lit "b=AS:" ++ unsignedText b)) with (@None text) by reflexivity.
  change (lit "b=AS:") with (txt "b=AS:"). rewrite after_app, num_unsigned, lastMedia_snoc. reflexivity.
Qed.

Lemma readLine_map n l m pt c r x rest : readMap rest = Some x ->
  rest = unsignedText pt ++ lit " " ++ c ++ r ->
  readLine (mkDescr n (l ++ [m])) (lit "a=rtpmap:" ++ rest)
  = Some (mkDescr n (l ++ [mkMedia (mMedium m) (mPort m) (mProto m) (mPt m) (mBandwidth m) (Some x) (mFmtp m)])).
Proof.
  intros H _. unfold readLine.
  replace (after (txt "s=") (lit "a=rtpmap:" ++ rest)) with (@None text) by reflexivity.
  replace (after (txt "m=") (lit "a=rtpmap:" ++ rest)) with (@None text) by reflexivity.
  replace (after (txt "b=AS:") (lit "a=rtpmap:" ++ rest)) with (@None text) by reflexivity.
  change (lit "a=rtpmap:") with (txt "a=rtpmap:"). rewrite after_app, H, lastMedia_snoc. reflexivity.
Qed.

Lemma readMap_ok pt c f ch : lacks " " c -> lacks "/" c ->
  readMap (unsignedText pt ++ lit " " ++ c ++ lit "/" ++ unsignedText f ++
           (if (ch mod 4294967296) =? 0 then [] else lit "/" ++ unsignedText ch))
  = Some (pt mod 4294967296, c, f mod 4294967296,
          if (ch mod 4294967296) =? 0 then None else Some (ch mod 4294967296)).
Proof.
  intros N1 N2. unfold readMap. change (lit " ") with [" "%char]. change (lit "/") with ["/"%char]. cbn [app].
  rewrite fields_app by (apply unsigned_lacks; reflexivity).
  assert (NS : lacks " " (c ++ "/"%char :: unsignedText f ++
     (if ch mod 4294967296 =? 0 then [] else "/"%char :: unsignedText ch))).
  { apply lacks_app; [exact N1|]. intros [I|I]; [discriminate|]. revert I.
    apply lacks_app; [apply unsigned_lacks; reflexivity|].
    destruct (ch mod 4294967296 =? 0); [intros I; destruct I|].
    intros [I|I]; [discriminate|]. revert I. apply unsigned_lacks. reflexivity. }
  rewrite fields_one by exact NS. cbn [app].
  rewrite num_unsigned, fields_app by exact N2. cbn [app].
  destruct (ch mod 4294967296 =? 0).
  - rewrite app_nil_r, fields_one by (apply unsigned_lacks; reflexivity). cbn [app].
    rewrite num_unsigned. reflexivity.
  - rewrite fields_app, fields_one by (apply unsigned_lacks; reflexivity). cbn [app].
    rewrite !num_unsigned. reflexivity.
Qed.

Lemma readLine_fmtp n l m r :
  readLine (mkDescr n (l ++ [m])) (lit "a=fmtp:" ++ r)
  = Some (mkDescr n (l ++ [mkMedia (mMedium m) (mPort m) (mProto m) (mPt m) (mBandwidth m) (mMap m) (Some r)])).
Proof.
  unfold readLine.
  replace (after (txt "s=") (lit "a=fmtp:" ++ r)) with (@None text) by reflexivity.
  replace (after (txt "m=") (lit "a=fmtp:" ++ r)) with (@None text) by reflexivity.
  replace (after (txt "b=AS:") (lit "a=fmtp:" ++ r)) with (@None text) by reflexivity.
  replace (after (txt "a=rtpmap:") (lit "a=fmtp:" ++ r)) with (@None text) by reflexivity.
  change (lit "a=fmtp:") with (txt "a=fmtp:"). rewrite after_app, lastMedia_snoc. reflexivity.
Qed.

Definition inRange (z : Z) : Prop := 0 <= z < 4294967296.

Lemma readLines_app a : forall d b, readLines d (a ++ b) =
  match readLines d a with Some d' => readLines d' b | None => None end.
Proof.
  induction a as [|x a IH]; intros d b; cbn [app readLines]; [reflexivity|].
  destruct (readLine d x); [apply IH|reflexivity].
Qed.

Lemma read_sub d s pt : In (sCodec s, pt) codecs -> lacks " " (sMedium s) ->
  inRange (sPort s) -> inRange (sBandwidth s) -> inRange (sFreq s) -> inRange (sChannels s) ->
  readLines d (subLines s pt) =
  Some (mkDescr (dName d) (dMedia d ++
    [wanted (sMedium s) (sCodec s) pt (sBandwidth s) (sFreq s) (sPort s) (sChannels s)])).
Proof.
  intros K N RP RB RF RC. unfold subLines.
  destruct (payload_known _ _ K) as (_ & B).
  destruct (codec_clean _ _ K) as (_ & C1 & C2).
  assert (M : forall z, inRange z -> z mod 4294967296 = z) by (intros z H; apply Z.mod_small; exact H).
  rewrite readLines_app. cbn [readLines].
  rewrite readLine_media by exact N.
  rewrite readLine_skip by (cbn [In]; tauto).
  rewrite readLine_bw. cbn [mMedium mPort mProto mPt mMap mFmtp].
  rewrite !M by (try assumption; unfold inRange; lia).
  unfold wanted. destruct (Z.ltb_spec pt 96) as [L|L].
  - cbn [readLines]. repeat f_equal. 
    destruct (list_eq_dec ascii_dec (sCodec s) (txt "H264")) as [E|E].
    { rewrite E in K. apply payload_known in K. destruct K as (K & _). vm_compute in K. lia. }
    destruct (list_eq_dec ascii_dec (sCodec s) (txt "MPEG4-GENERIC")) as [E2|E2]; [|reflexivity].
    rewrite E2 in K. apply payload_known in K. destruct K as (K & _). vm_compute in K. lia.
  - rewrite !readLines_app. cbn [readLines].
    erewrite readLine_map; [|rewrite <- (M (sChannels s) RC) at 1; apply readMap_ok; assumption|reflexivity].
    cbn [mMedium mPort mProto mPt mBandwidth mMap mFmtp].
    rewrite !M by (try assumption; unfold inRange; lia).
    unfold streq. change (lit "H264") with (txt "H264"). change (lit "MPEG4-GENERIC") with (txt "MPEG4-GENERIC").
    change (lit "audio") with (txt "audio").
    destruct (list_eq_dec ascii_dec (sCodec s) (txt "H264")) as [E|E].
    + destruct (list_eq_dec ascii_dec (sCodec s) (txt "MPEG4-GENERIC")) as [E2|_]; [rewrite E in E2; discriminate|].
      cbn iota. rewrite app_nil_r. cbn [readLines]. rewrite readLine_fmtp.
      cbn [mMedium mPort mProto mPt mBandwidth mMap mFmtp readLines].
      assert (pt = 96) as ->.
      { rewrite E in K. apply payload_known in K. destruct K as (K & _). vm_compute in K. lia. }
      reflexivity.
    + cbn [readLines].
      destruct (list_eq_dec ascii_dec (sCodec s) (txt "MPEG4-GENERIC")) as [E2|E2].
      * destruct (list_eq_dec ascii_dec (sMedium s) (txt "audio")) as [E3|E3]; [|reflexivity].
        cbn [andb app readLines]. cbn iota. cbn [readLines]. rewrite readLine_fmtp.
        cbn [mMedium mPort mProto mPt mBandwidth mMap mFmtp readLines].
        assert (pt = 97) as ->.
        { rewrite E2 in K. apply payload_known in K. destruct K as (K & _). vm_compute in K. lia. }
        reflexivity.
      * reflexivity.
Qed.

Lemma subLines_clean s pt : In (sCodec s, pt) codecs -> lacks LF (sMedium s) ->
  Forall (lacks LF) (subLines s pt).
Proof.
  intros K N. destruct (codec_clean _ _ K) as (C & _ & _).
  assert (U : forall z, lacks LF (unsignedText z)) by (intros z; apply unsigned_lacks; reflexivity).
  unfold subLines. apply Forall_app. split.
  - repeat apply Forall_cons; try apply Forall_nil; repeat apply lacks_app; try apply U; try exact N; lit_lacks.
  - destruct (pt mod 4294967296 <? 96); [apply Forall_nil|].
    apply Forall_app. split; [|apply Forall_app; split].
    + apply Forall_cons; [|apply Forall_nil].
      repeat apply lacks_app; try apply U; try exact C; try lit_lacks.
      destruct (sChannels s mod 4294967296 =? 0); [lit_lacks|]. apply lacks_app; [lit_lacks|apply U].
    + destruct (streq _ _); [|apply Forall_nil]. apply Forall_cons; [|apply Forall_nil].
      repeat apply lacks_app; try apply U; lit_lacks.
    + destruct (_ && _); [|apply Forall_nil]. apply Forall_cons; [|apply Forall_nil].
      repeat apply lacks_app; try apply U; lit_lacks.
Qed.

(* ---- renaming ---- *)

Lemma startsWith_after p : forall s, startsWith p s = match after p s with Some _ => true | None => false end.
Proof.
  induction p as [|c p IH]; intros [|x s]; cbn [startsWith after]; try reflexivity.
  unfold is. destruct (Ascii.eqb c x); [apply IH|reflexivity].
Qed.

Lemma linesAny_lf l : forall cur r c, (c = LF \/ c = CR) -> lacks LF l -> lacks CR l -> cur ++ l <> [] ->
  linesAny cur (l ++ c :: r) = (cur ++ l) :: linesAny [] r.
Proof.
  induction l as [|x l IH]; intros cur r c C N1 N2 NE; cbn [app linesAny].
  - rewrite app_nil_r in *.
    assert ((Ascii.eqb c "010" || Ascii.eqb c "013") = true) as ->.
    { destruct C as [->| ->]; reflexivity. }
    destruct cur; [congruence|reflexivity].
  - destruct (Ascii.eqb_spec x "010") as [E|E]; [exfalso; apply N1; left; exact E|].
    destruct (Ascii.eqb_spec x "013") as [E2|E2]; [exfalso; apply N2; left; exact E2|].
    cbn [orb]. rewrite IH.
    + rewrite <- app_assoc. reflexivity.
    + exact C.
    + intros I; apply N1; right; exact I.
    + intros I; apply N2; right; exact I.
    + destruct cur; discriminate.
Qed.

Lemma getlines_crlf ls : Forall isLine ls -> getlines [] (crlf ls) = map (fun l => l ++ [CR]) ls.
Proof.
  intros F. rewrite getlines_is.
  assert (E : crlf ls = lf (map (fun l => l ++ [CR]) ls)).
  { clear. induction ls as [|l ls IH]; [reflexivity|].
    cbn [map]. rewrite lf_cons. unfold crlf in *. cbn [flat_map]. rewrite IH, <- !app_assoc. reflexivity. }
  rewrite E. apply linesLF_lf. induction F as [|l ls (_ & N & _) F IH]; [constructor|].
  cbn [map]. constructor; [|exact IHF || apply IH].
  - apply lacks_app; [exact N|]. lit_lacks.
  - clear - F. induction F as [|l ls (_ & N & _) F IH]; [reflexivity|]. 
    cbn [map]. rewrite lf_cons. unfold crlf in *. cbn [flat_map]. rewrite IH, <- !app_assoc. reflexivity.
Qed.

Lemma after_cr p l : forall r, after p l = Some r -> after p (l ++ [CR]) = Some (r ++ [CR]).
Proof.
  revert l. induction p as [|c p IH]; intros [|x l] r; cbn [after app]; intros H; try discriminate;
    try (injection H as <-; reflexivity).
  destruct (Ascii.eqb c x); [apply IH; exact H|discriminate].
Qed.

Lemma after_no_cr p l : ~ In CR p -> after p l = None -> after p (l ++ [CR]) = None.
Proof.
  revert l. induction p as [|c p IH]; intros [|x l] N; cbn [after app]; intros H; try discriminate; try reflexivity.
  - destruct (Ascii.eqb_spec c CR) as [E|E]; [|reflexivity]. exfalso. apply N. left. exact E.
  - destruct (Ascii.eqb c x); [|reflexivity]. apply IH; [|exact H]. intros I; apply N; right; exact I.
Qed.
