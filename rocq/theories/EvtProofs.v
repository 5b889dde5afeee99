(** Proofs about the events of filters. *)
From Coq Require Import Ascii String.
From Verif Require Import Base ZMap F32 JsonModel NamesModel NamesProps CtlModel CtlSpec CtlProofs FtxModel FtxSpec FtxProofs FtxProps EvtModel EvtSpec.
From Verif Require MixModel VidModel RsmModel AdcModel AenModel EncModel MpdModel SdpModel SdpSpec.
Local Open Scope string_scope.
Local Open Scope list_scope.
Local Open Scope Z_scope.

Definition pres (k : string) (c : fields) : bool := match get k c with Some _ => true | None => false end.
Definition isSome {A} (o : option A) : bool := match o with Some _ => true | None => false end.

(** Members of an object without repeated names. *)
Lemma in_member c k n : NoDup (map fst c) -> In (lit k, n) c -> member c k n.
Proof.
  intros ND I0. apply in_split in I0. destruct I0 as (a & b & ->). exists a, b. split; [reflexivity|].
  rewrite map_app in ND. cbn [map fst] in ND. apply NoDup_remove_2 in ND. rewrite in_app_iff in ND. tauto.
Qed.
Lemma find_member c k : NoDup (map fst c) -> absent c k \/ exists n, member c k n.
Proof.
  intros ND. destruct (in_dec (list_eq_dec ascii_dec) (lit k) (map fst c)) as [I0|N]; [right|left; exact N].
  apply in_map_iff in I0. destruct I0 as ([k' n] & E & I0). cbn [fst] in E. subst k'. exists n. apply in_member; assumption.
Qed.
Lemma member_in c k n : member c k n -> In (lit k, n) c.
Proof. intros (a & b & -> & _). apply in_or_app. right. left. reflexivity. Qed.

(** *** One member: how each way of reading it sees it. *)
Record reads {A} (f : node -> option A) (ok : node -> bool) (c : fields) (k : string) (o : option A) : Prop := mkReads {
  rd_take : take f k c = o; rd_opt : opt f k c = Some o; rd_guarded : guarded ok f k c = o; rd_pres : pres k c = isSome o }.
Lemma reads_absent {A} (f : node -> option A) ok c k : absent c k -> reads f ok c k None.
Proof. intros N. pose proof (child_absent c k N) as G. split; unfold take, opt, guarded, pres; rewrite G; reflexivity. Qed.
Lemma reads_member {A} (f : node -> option A) ok c k n a : member c k n -> ok n = true -> f n = Some a -> reads f ok c k (Some a).
Proof. intros M O F. pose proof (child_member c k n M) as G. split; unfold take, opt, guarded, pres; rewrite G, ?O, ?F; reflexivity. Qed.
Lemma reads_number c k z : number c k z -> reads toInt isNum c k (Some z).
Proof. intros (s & M & I0). eapply reads_member; [exact M|reflexivity|]. cbn [toInt]. rewrite (intIs_value s z I0). reflexivity. Qed.
Lemma real_value s v : isReal s v -> readFloat s = v.
Proof. intros (n & d & R & B & ->). apply real_read; assumption. Qed.
Lemma reads_real c k v : real c k v -> reads toFloat isNum c k (Some v).
Proof. intros (s & M & R). eapply reads_member; [exact M|reflexivity|]. cbn [toFloat]. rewrite (real_value s v R). reflexivity. Qed.
Lemma reads_text c k s : text c k s -> reads nodeText isText c k (Some s).
Proof. intros M. eapply reads_member; [exact M|reflexivity|reflexivity]. Qed.
Lemma reads_flag c k b : flag c k b -> reads toBool isBool c k (Some b).
Proof. intros M. eapply reads_member; [exact M|reflexivity|]. destruct b; reflexivity. Qed.
Lemma reads_maybe {A} (P : fields -> string -> A -> Prop) f ok c k o :
  (forall a, P c k a -> reads f ok c k (Some a)) -> maybe P c k o -> reads f ok c k o.
Proof. destruct o; cbn [maybe]; intros H M; [apply H, M | apply reads_absent, M]. Qed.
Lemma toInts_is l zs : isInts l zs -> toInts l = Some zs.
Proof. induction 1 as [|n z l zs (s & -> & I0) _ IH]; [reflexivity|]. cbn [toInts toInt]. rewrite (intIs_value s z I0), IH. reflexivity. Qed.

(** *** Names of enumerations. *)
Lemma lit_text s : lit (string_of_list_ascii s) = s.
Proof. apply list_ascii_of_string_of_list_ascii. Qed.
Lemma text_lit s : string_of_list_ascii (lit s) = s.
Proof. apply string_of_list_ascii_of_string. Qed.
Lemma names_from {E} (show : E -> string) (from : string -> E) none s v : (forall x y : E, {x = y} + {x <> y}) -> faithful none show from ->
  (names show none s v <-> from (chars s) = v).
Proof.
  intros D F. pose proof F as [F1 F2]. unfold chars. split.
  - intros [[N ->]|[-> U]]; [rewrite text_lit; apply F1|]. apply (faithful_unknown none show from F); [|exact D].
    intros x N E0. apply (U x N). rewrite <- E0, lit_text. reflexivity.
  - intros <-. destruct (D (from (string_of_list_ascii s)) none) as [E0|N]; [right; split; [exact E0|]|left; split; [exact N|]].
    + intros w N ->. rewrite text_lit, F1 in E0. exact (N E0).
    + rewrite <- (F2 _ N), lit_text. reflexivity.
Qed.
Lemma smp_dec (x y : SampleFmt) : {x = y} + {x <> y}. Proof. decide equality. Qed.
Lemma acd_dec (x y : ACodecType) : {x = y} + {x <> y}. Proof. decide equality. Qed.
Lemma tx_dec (x y : TxFormat) : {x = y} + {x <> y}. Proof. decide equality. Qed.

(** A text and the value it names. *)
Lemma reads_named {E} (show : E -> string) (from : string -> E) none c k v : (forall x y : E, {x = y} + {x <> y}) -> faithful none show from ->
  named show none c k v -> exists s, reads nodeText isText c k (Some s) /\ from (chars s) = v.
Proof. intros D F (s & T & N). exists s. split; [apply reads_text, T|]. apply (names_from show from none s v D F), N. Qed.
Lemma reads_mnamed {E} (show : E -> string) (from : string -> E) none c k o : (forall x y : E, {x = y} + {x <> y}) -> faithful none show from ->
  maybe (named show none) c k o -> exists s, reads nodeText isText c k s /\ option_map (fun s => from (chars s)) s = o.
Proof.
  intros D F. destruct o as [v|]; cbn [maybe]; intros M.
  - destruct (reads_named show from none c k v D F M) as (s & R & <-). exists (Some s). split; [exact R|reflexivity].
  - exists None. split; [apply reads_absent, M|reflexivity].
Qed.

(** *** Texts of digits. *)
Lemma digit_char_plain c : digit c <> None -> isSpace c = false /\ is c "-" = false /\ is c "+" = false.
Proof. destruct c as [[] [] [] [] [] [] [] []]; vm_compute; intros N; try (exfalso; apply N; reflexivity); repeat split; reflexivity. Qed.
Lemma stoull_digits s t : digits s t -> s <> [] -> t < 2 ^ 63 -> stoull s = Some t.
Proof.
  intros D N B. destruct (digits_spec s t D) as (T0 & _ & F). destruct s as [|c r]; [congruence|].
  destruct (digit_char_plain c) as (S1 & S2 & S3); [inversion F; assumption|]. unfold stoull. cbn [blanks]. rewrite S1, S2, S3.
  pose proof (span_digits (c :: r) t D [] 0 0) as SP. rewrite app_nil_r in SP. rewrite SP. cbn [span]. rewrite Z.mul_0_l, !Z.add_0_l.
  replace (Z.of_nat (length (c :: r)) =? 0) with false by (cbn [length]; symmetry; apply Z.eqb_neq; lia).
  replace (2 ^ 64 <=? t) with false by (symmetry; apply Z.leb_gt; lia). reflexivity.
Qed.
Lemma stoull_blanks w s : Forall blankChar w -> stoull (w ++ s) = stoull s.
Proof.
  intros B. unfold stoull. replace (blanks (w ++ s)) with (blanks s); [reflexivity|].
  induction B as [|c w C B IH]; [reflexivity|]. cbn [app blanks]. replace (isSpace c) with true; [exact IH|].
  unfold blankChar in C. cbn [In] in C. destruct C as [<-|[<-|[<-|[<-|[<-|[<-|[]]]]]]]; reflexivity.
Qed.
(** A sign before the digits. *)
Lemma digits_nonneg s t : digits s t -> 0 <= t.
Proof. intros D. apply (digits_spec s t D). Qed.
Lemma stoull_sign (neg : bool) s t : digits s t -> s <> [] -> t < 2 ^ 63 ->
  stoull ((if neg then "-"%char else "+"%char) :: s) = Some (if neg then (- t) mod 2 ^ 64 else t).
Proof.
  intros D N B. pose proof (span_digits s t D [] 0 0) as SP. rewrite app_nil_r in SP. cbn [span] in SP. rewrite Z.mul_0_l, !Z.add_0_l in SP.
  unfold stoull. destruct neg; cbn [blanks]; [change (isSpace "-"%char) with false|change (isSpace "+"%char) with false];
    cbv iota; [change (is "-"%char "-") with true|change (is "+"%char "-") with false; change (is "+"%char "+") with true]; cbv iota; rewrite SP;
    (replace (Z.of_nat (length s) =? 0) with false by (destruct s; [congruence|]; cbn [length]; symmetry; apply Z.eqb_neq; lia));
    (replace (2 ^ 64 <=? t) with false by (symmetry; apply Z.leb_gt; lia)); reflexivity.
Qed.
(** Any other text is refused. *)
Lemma stoull_other c s : ~ blankChar c -> digit c = None -> c <> "+"%char -> c <> "-"%char -> stoull (c :: s) = None.
Proof.
  intros B D P M. unfold stoull. cbn [blanks]. replace (isSpace c) with false.
  2:{ symmetry. clear -B. unfold blankChar in B. destruct c as [[] [] [] [] [] [] [] []]; try reflexivity; exfalso; apply B; cbn; tauto. }
  replace (is c "-") with false by (symmetry; apply Ascii.eqb_neq; exact M). replace (is c "+") with false by (symmetry; apply Ascii.eqb_neq; exact P). cbn [span]. rewrite D. reflexivity.
Qed.
Lemma reads_time c k t : time c k t -> exists s, reads nodeText isText c k (Some s) /\ stoull s = Some t /\ signed64 t = t.
Proof.
  intros (w & s & T & W & N & D & B). exists (w ++ s). split; [apply reads_text, T|]. split; [rewrite (stoull_blanks w s W); apply stoull_digits; assumption|].
  unfold signed64. replace (t <? 2 ^ 63) with true by (symmetry; apply Z.ltb_lt; exact B). reflexivity.
Qed.

(** *** Streams of a session. *)
Lemma subOf_stream n s : stream n s -> subOf n = Some s.
Proof.
  intros (c & -> & T1 & T2 & N1 & N2 & N3 & N4). cbn [subOf].
  rewrite (rd_take _ _ _ _ _ (reads_text _ _ _ T1)), (rd_take _ _ _ _ _ (reads_text _ _ _ T2)), (rd_take _ _ _ _ _ (reads_number _ _ _ N1)),
    (rd_take _ _ _ _ _ (reads_number _ _ _ N2)), (rd_take _ _ _ _ _ (reads_number _ _ _ N3)), (rd_take _ _ _ _ _ (reads_number _ _ _ N4)).
  destruct s; reflexivity.
Qed.
Lemma codec_known s : knownCodec s \/ ~ knownCodec s.
Proof. destruct (in_dec (list_eq_dec ascii_dec) s (map fst SdpSpec.codecs)) as [H|H]; [left|right]; exact H. Qed.
Lemma streq_true a b : streq a b = true -> a = b.
Proof. unfold streq. destruct list_eq_dec; congruence. Qed.
Lemma payload_known s : knownCodec s <-> (SdpModel.getPayloadFromCodec s <? 0) = false.
Proof.
  unfold knownCodec, SdpModel.getPayloadFromCodec. split.
  - cbn [map fst SdpSpec.codecs In]. intros [<-|[<-|[<-|[<-|[<-|[<-|[]]]]]]]; reflexivity.
  - repeat match goal with |- context [streq s ?b] => destruct (streq s b) eqn:?; [match goal with H : streq s _ = true |- _ => apply streq_true in H; subst s; intros _; cbn; tauto end|] end.
    cbn. discriminate.
Qed.
Lemma subs_known l subs : Forall2 stream l subs -> Forall (fun s => knownCodec (SdpModel.sCodec s)) subs -> subsOf l = Orders subs.
Proof.
  induction 1 as [|n s l subs S0 _ IH]; intros F; [reflexivity|]. inversion F as [|? ? K F']; subst. cbn [subsOf]. rewrite (subOf_stream n s S0). cbn [need].
  apply payload_known in K. rewrite K, (IH F'). reflexivity.
Qed.
Lemma subs_unknown l subs : Forall2 stream l subs -> Forall (fun s => knownCodec (SdpModel.sCodec s)) subs \/ subsOf l = Refused.
Proof.
  induction 1 as [|n s l subs S0 _ IH]; [left; constructor|]. cbn [subsOf]. rewrite (subOf_stream n s S0). cbn [need].
  destruct (codec_known (SdpModel.sCodec s)) as [K|K].
  - destruct IH as [IH|IH]; [left; constructor; assumption|right]. rewrite (proj1 (payload_known _) K), IH. reflexivity.
  - right. destruct (SdpModel.getPayloadFromCodec (SdpModel.sCodec s) <? 0) eqn:P; [reflexivity|]. exfalso. apply K, payload_known, P.
Qed.

(** *** What is asked for is ordered. *)
Lemma reads_natural c k z : natural c k z -> reads toInt isNum c k (Some z) /\ unsigned z = z.
Proof. intros [N P]. split; [apply reads_number, N|]. destruct N as (s & _ & [B _]). unfold int32 in B. unfold unsigned. apply Z.mod_small. lia. Qed.
Lemma reads_mnatural c k o : maybe natural c k o -> reads toInt isNum c k o /\ option_map unsigned o = o.
Proof.
  destruct o as [z|]; cbn [maybe]; intros M; [|split; [apply reads_absent, M|reflexivity]].
  destruct (reads_natural c k z M) as [R U]. split; [exact R|]. cbn [option_map]. rewrite U. reflexivity.
Qed.
Ltac rd H L := let R := fresh "R" in pose proof L as R; clear H;
  rewrite ?(rd_take _ _ _ _ _ R), ?(rd_opt _ _ _ _ _ R), ?(rd_guarded _ _ _ _ _ R); pose proof (rd_pres _ _ _ _ _ R).
Ltac readall := repeat match goal with
  | H : number ?c ?k ?z |- _ => rd H (reads_number c k z H)
  | H : real ?c ?k ?z |- _ => rd H (reads_real c k z H)
  | H : text ?c ?k ?z |- _ => rd H (reads_text c k z H)
  | H : flag ?c ?k ?z |- _ => rd H (reads_flag c k z H)
  | H : maybe number ?c ?k ?z |- _ => rd H (reads_maybe number toInt isNum c k z (reads_number c k) H)
  | H : maybe text ?c ?k ?z |- _ => rd H (reads_maybe text nodeText isText c k z (reads_text c k) H)
  | H : maybe flag ?c ?k ?z |- _ => rd H (reads_maybe flag toBool isBool c k z (reads_flag c k) H)
  end.
Ltac closed := repeat match goal with |- context [streq (lit ?a) (lit ?b)] => let v := eval vm_compute in (streq (lit a) (lit b)) in change (streq (lit a) (lit b)) with v end.
Lemma has_pres ks c : has ks c = forallb (fun k => pres k c) ks. Proof. reflexivity. Qed.
Ltac haves := rewrite ?has_pres; cbn [forallb]; repeat match goal with H : pres ?k ?c = _ |- _ => rewrite ?H; clear H end; cbn [isSome andb].
Ltac open := unfold event, mixerEvent, vmixerEvent, splitterEvent, resamplerEvent, audioDecoderEvent, audioEncoderEvent, encoderEvent, dasherEvent, demuxerEvent,
  transmitterEvent, receiverEvent; closed; unfold changeChannelVolume, muteChannel, soloChannel, changeMasterVolume, muteMaster, configChannel, configureMixer, configCrop,
  configureSplitter, configEncoder, setGopReferenceTime, configureDasher, setBitrate, removeConnection, addRtsp, addRtp, removeSession, addSession; cbn [onObject].
Lemma carried_out f a c o : asks f a c o -> event f (lit a) (Some (Obj c)) = Orders o.
Proof.
  destruct 1.
  all: try solve [open; readall; haves; reflexivity].
  - open. readall. match goal with H : absent c "width" \/ _ |- _ => destruct H as [N|N] end;
      rewrite (rd_guarded _ _ _ _ _ (reads_absent toInt isNum c _ N)); [|destruct (guarded isNum toInt "width" c)]; reflexivity.
  - match goal with H : maybe (named _ _) c _ _ |- _ => destruct (reads_mnamed _ _ _ c _ _ smp_dec sample_format_names H) as (s & R & <-); clear H end.
    open. readall. rewrite (rd_opt _ _ _ _ _ R). reflexivity.
  - match goal with H : maybe (named _ _) c _ _ |- _ => destruct (reads_mnamed _ _ _ c _ _ acd_dec audio_codec_names H) as (s & R & <-); clear H end.
    open. readall. rewrite (rd_opt _ _ _ _ _ R). reflexivity.
  - match goal with H : time c _ _ |- _ => destruct (reads_time c _ _ H) as (s & R & T & G) end. open. rewrite (rd_guarded _ _ _ _ _ R), T. cbn [need]. rewrite G. reflexivity.
  - repeat match goal with H : maybe natural c ?k ?o |- _ => destruct (reads_mnatural c k o H); clear H end. open. readall.
    repeat match goal with R : reads toInt isNum c _ _ |- _ => rewrite (rd_guarded _ _ _ _ _ R); clear R end.
    cbn [gmap]. unfold given. repeat f_equal; [destruct du|destruct ms|destruct mb]; try reflexivity; cbn [option_map dflt] in *; congruence.
  - match goal with H : natural c ?k ?o |- _ => destruct (reads_natural c k o H) as [R U]; clear H end. open. readall. pose proof (rd_pres _ _ _ _ _ R). haves.
    rewrite (rd_take _ _ _ _ _ R). cbn [need]. rewrite U. reflexivity.
  - match goal with H : named _ _ c _ _ |- _ => destruct (reads_named _ _ _ c _ _ tx_dec transport_format_names H) as (s & R & <-); clear H end.
    match goal with H : numbers c _ _ |- _ => destruct H as (l & M & I0) end.
    pose proof (reads_member elements (fun _ => true) c "readers" (Arr l) l M eq_refl eq_refl) as RL.
    open. readall. pose proof (rd_pres _ _ _ _ _ R). pose proof (rd_pres _ _ _ _ _ RL). haves. rewrite (rd_take _ _ _ _ _ R), (rd_take _ _ _ _ _ RL). cbn [need].
    rewrite (toInts_is l rs I0). destruct rs; [congruence|reflexivity].
  - match goal with H : named _ _ c _ _ |- _ => destruct (reads_named _ _ _ c _ _ tx_dec transport_format_names H) as (s & R & <-); clear H end.
    match goal with H : numbers c _ _ |- _ => destruct H as (l & M & I0) end.
    pose proof (reads_member elements (fun _ => true) c "readers" (Arr l) l M eq_refl eq_refl) as RL.
    open. readall. pose proof (rd_pres _ _ _ _ _ R). pose proof (rd_pres _ _ _ _ _ RL). haves. rewrite (rd_take _ _ _ _ _ R), (rd_take _ _ _ _ _ RL). cbn [need].
    rewrite (toInts_is l rs I0). destruct rs; [congruence|reflexivity].
  - open. readall. destruct id as [i|]; haves; [|reflexivity].
    match goal with H : forall i, _ -> known i = false |- _ => rewrite (H i eq_refl) end. reflexivity.
  - assert (HN : has ["uri"; "progName"] c = false).
    { rewrite has_pres. cbn [forallb]. match goal with H : absent c _ \/ _ |- _ => destruct H as [N|N] end; rewrite (rd_pres _ _ _ _ _ (reads_absent nodeText isText c _ N)); [reflexivity|].
      destruct (pres "uri" c); reflexivity. }
    match goal with M : member c _ _ |- _ => pose proof (reads_member elements (fun _ => true) c "subsessions" (Arr l) l M eq_refl eq_refl) as RL end.
    open. readall. rewrite HN, (rd_take _ _ _ _ _ RL), (subs_known l subs) by assumption. destruct id as [i|]; [|reflexivity].
    match goal with H : forall i, _ -> known i = false |- _ => rewrite (H i eq_refl) end. reflexivity.
  - open. match goal with H : text c _ _ |- _ => rewrite (child_member _ _ _ H) end. reflexivity.
Qed.

(** *** What is ordered was asked for. *)
Definition fine (c : fields) (k : string) (d : kind) : Prop := forall n, In (lit k, n) c -> ofKind d n.
Lemma fit_int c k : NoDup (map fst c) -> fine c k KInt -> exists o, maybe number c k o /\ reads toInt isNum c k o.
Proof.
  intros ND F. destruct (find_member c k ND) as [N|(n & M)]; [exists None; split; [exact N|apply reads_absent, N]|].
  destruct (F n (member_in _ _ _ M)) as (s & z & -> & I0). exists (Some z). assert (G : number c k z) by (exists s; split; assumption). split; [exact G|apply reads_number, G].
Qed.
Lemma fit_nat c k : NoDup (map fst c) -> fine c k KNat -> exists o, maybe natural c k o /\ reads toInt isNum c k o /\ option_map unsigned o = o.
Proof.
  intros ND F. destruct (find_member c k ND) as [N|(n & M)]; [exists None; split; [exact N|split; [apply reads_absent, N|reflexivity]]|].
  destruct (F n (member_in _ _ _ M)) as (s & z & -> & I0 & P). exists (Some z). assert (G : natural c k z) by (split; [exists s; split; assumption|exact P]).
  split; [exact G|]. apply reads_mnatural. exact G.
Qed.
Lemma fit_real c k : NoDup (map fst c) -> fine c k KReal -> exists o, maybe real c k o /\ reads toFloat isNum c k o.
Proof.
  intros ND F. destruct (find_member c k ND) as [N|(n & M)]; [exists None; split; [exact N|apply reads_absent, N]|].
  destruct (F n (member_in _ _ _ M)) as (s & z & -> & I0). exists (Some z). assert (G : real c k z) by (exists s; split; assumption). split; [exact G|apply reads_real, G].
Qed.
Lemma fit_text c k : NoDup (map fst c) -> fine c k KText -> exists o, maybe text c k o /\ reads nodeText isText c k o.
Proof.
  intros ND F. destruct (find_member c k ND) as [N|(n & M)]; [exists None; split; [exact N|apply reads_absent, N]|].
  destruct (F n (member_in _ _ _ M)) as (s & ->). exists (Some s). split; [exact M|apply reads_text, M].
Qed.
Lemma fit_bool c k : NoDup (map fst c) -> fine c k KBool -> exists o, maybe flag c k o /\ reads toBool isBool c k o.
Proof.
  intros ND F. destruct (find_member c k ND) as [N|(n & M)]; [exists None; split; [exact N|apply reads_absent, N]|].
  destruct (F n (member_in _ _ _ M)) as (b & ->). exists (Some b). split; [exact M|apply reads_flag, M].
Qed.
Lemma fit_time c k : NoDup (map fst c) -> fine c k KTime -> (absent c k /\ guarded isText nodeText k c = None) \/ exists t, time c k t.
Proof.
  intros ND F. destruct (find_member c k ND) as [N|(n & M)]; [left; split; [exact N|apply (rd_guarded _ _ _ _ _ (reads_absent _ _ _ _ N))]|right].
  destruct (F n (member_in _ _ _ M)) as (w & s & t & -> & W & NE & D & B). exists t, w, s. repeat split; assumption.
Qed.
Lemma fit_ints c k : NoDup (map fst c) -> fine c k KInts -> exists o, reads elements (fun _ => true) c k o /\ match o with Some l => exists zs, numbers c k zs /\ toInts l = Some zs | None => True end.
Proof.
  intros ND F. destruct (find_member c k ND) as [N|(n & M)]; [exists None; split; [apply reads_absent, N|exact I]|].
  destruct (F n (member_in _ _ _ M)) as (l & zs & -> & I0). exists (Some l). split; [eapply reads_member; [exact M|reflexivity|reflexivity]|].
  exists zs. split; [exists l; split; assumption|apply toInts_is, I0].
Qed.
Lemma fit_streams c k : NoDup (map fst c) -> fine c k KStreams -> exists o, reads elements (fun _ => true) c k o /\ match o with Some l => member c k (Arr l) /\ exists subs, Forall2 stream l subs | None => True end.
Proof.
  intros ND F. destruct (find_member c k ND) as [N|(n & M)]; [exists None; split; [apply reads_absent, N|exact I]|].
  destruct (F n (member_in _ _ _ M)) as (l & subs & -> & I0). exists (Some l). split; [eapply reads_member; [exact M|reflexivity|reflexivity]|].
  split; [exact M|exists subs; exact I0].
Qed.
Lemma named_of {E} (show : E -> string) (from : string -> E) none c k s : (forall x y : E, {x = y} + {x <> y}) -> faithful none show from ->
  text c k s -> named show none c k (from (chars s)).
Proof. intros D F T. exists s. split; [exact T|]. apply (names_from show from none s _ D F). reflexivity. Qed.
Lemma mnamed_of {E} (show : E -> string) (from : string -> E) none c k s : (forall x y : E, {x = y} + {x <> y}) -> faithful none show from ->
  maybe text c k s -> maybe (named show none) c k (option_map (fun s => from (chars s)) s).
Proof. intros D F. destruct s as [s|]; cbn [maybe option_map]; [apply named_of; assumption|tauto]. Qed.

(** The end result of an event: neither the end of the program, nor an order that was not asked for. *)
Definition good (f : filter) (a : string) (c : fields) (g : got order) : Prop := g <> Ends /\ forall o, g = Orders o -> asks f a c o.
Lemma good_refused f a c : good f a c Refused.
Proof. split; [discriminate|intros o E; discriminate]. Qed.
Lemma good_orders f a c o : asks f a c o -> good f a c (Orders o).
Proof. intros A. split; [discriminate|]. intros o' E. injection E as <-. exact A. Qed.
Ltac pick L := repeat first [left; reflexivity | right].
Ltac fit F ND L := match L with
  | [] => idtac
  | (?k, ?d) :: ?t =>
      let FK := fresh "FK" in
      assert (FK : fine _ k d) by (intros n; apply F; pick L);
      match d with
      | KInt => let M := fresh "M" in let R := fresh "R" in let o := fresh "o" in destruct (fit_int _ k ND FK) as (o & M & R)
      | KNat => let M := fresh "M" in let R := fresh "R" in let U := fresh "U" in let o := fresh "o" in destruct (fit_nat _ k ND FK) as (o & M & R & U)
      | KReal => let M := fresh "M" in let R := fresh "R" in let o := fresh "o" in destruct (fit_real _ k ND FK) as (o & M & R)
      | KText => let M := fresh "M" in let R := fresh "R" in let o := fresh "o" in destruct (fit_text _ k ND FK) as (o & M & R)
      | KBool => let M := fresh "M" in let R := fresh "R" in let o := fresh "o" in destruct (fit_bool _ k ND FK) as (o & M & R)
      | KInts => let M := fresh "M" in let R := fresh "R" in let o := fresh "o" in destruct (fit_ints _ k ND FK) as (o & R & M)
      | KStreams => let M := fresh "M" in let R := fresh "R" in let o := fresh "o" in destruct (fit_streams _ k ND FK) as (o & R & M)
      | KTime => let M := fresh "M" in destruct (fit_time _ k ND FK) as [M|M]
      end; clear FK; fit F ND t
  end.
Ltac rewrites := repeat match goal with R : reads _ _ ?c ?k _ |- _ =>
  rewrite ?(rd_take _ _ _ _ _ R), ?(rd_opt _ _ _ _ _ R), ?(rd_guarded _ _ _ _ _ R); pose proof (rd_pres _ _ _ _ _ R); clear R end.
Ltac split_has := repeat match goal with |- context [isSome ?o] => is_var o; destruct o; cbn [isSome andb gmap need]; try apply good_refused end.
Ltac finish := cbn [maybe need gmap] in *; apply good_orders; first [econstructor; eassumption | eapply as_size; eassumption | eapply as_rate; eauto].
Lemma lit_inj a b : lit a = lit b -> a = b.
Proof. intros E. rewrite <- (text_lit a), <- (text_lit b), E. reflexivity. Qed.
Lemma streq_lit a b : a <> b -> streq (lit a) (lit b) = false.
Proof. intros N. apply streq_neq. intros E. apply N, lit_inj, E. Qed.
Lemma unknown_action f a p : ~ known f a -> event f a p = Refused.
Proof.
  intros N. assert (G : forall b l, In (b, l) (table f) -> streq a (lit b) = false) by (intros b l I0; apply streq_neq; intros ->; apply N; exists b, l; split; [exact I0|reflexivity]).
  clear N. destruct f; cbn [event]; unfold mixerEvent, vmixerEvent, splitterEvent, resamplerEvent, audioDecoderEvent, audioEncoderEvent, encoderEvent, dasherEvent, demuxerEvent, transmitterEvent, receiverEvent;
  repeat match goal with |- context [streq a (lit ?b)] => erewrite (G b) by (cbn [table]; pick b) end; reflexivity.
Qed.
Lemma never_wrong f a c : fits f a c -> good f a c (event f (lit a) (Some (Obj c))).
Proof.
  intros [ND F]. destruct (in_dec string_dec a (map fst (table f))) as [I0|N].
  2:{ rewrite unknown_action; [apply good_refused|]. intros (b & l & I0 & E). apply lit_inj in E. subst b. apply N. apply (in_map fst) in I0. exact I0. }
  destruct f; cbn [table map fst In] in I0; repeat destruct I0 as [<-|I0]; try contradiction.
  all: match type of F with forall l, In (?a, l) (table ?f) -> _ => eassert (T : In (a, _) (table f)) by (cbn [table]; pick a); specialize (F _ T); clear T end.
  all: match type of F with forall k d n, In _ ?L -> _ => fit F ND L end; clear F.
  all: open; rewrites; haves.
  all: try solve [split_has; finish].
  - destruct o as [w|]; [destruct o0 as [h|]|]; cbn [gmap]; apply good_orders; [apply as_size|apply as_rate; [right|]|apply as_rate; [left|]]; assumption.
  - cbn [need gmap]. apply good_orders. apply as_decode; try assumption. apply mnamed_of; [exact smp_dec|exact sample_format_names|assumption].
  - cbn [need gmap]. apply good_orders. apply as_aencode; try assumption. apply mnamed_of; [exact acd_dec|exact audio_codec_names|assumption].
  - destruct M as [_ ->]. apply good_refused.
  - destruct M as [t M]. destruct (reads_time c _ _ M) as (s & R & T & G). rewrite (rd_guarded _ _ _ _ _ R), T. cbn [need gmap]. rewrite G. apply good_orders, as_reference, M.
  - replace (unsigned (dflt o1 (MpdModel.segDur d))) with (given o1 (MpdModel.segDur d mod 2 ^ 32)) by (destruct o1; cbn [given dflt option_map] in *; [congruence|reflexivity]).
    rewrite U0, U1. cbn [gmap]. apply good_orders, as_dash; assumption.
  - split_has. cbn [option_map] in U. injection U as U. rewrite U. apply good_orders, as_bitrate; assumption.
  - split_has. destruct M as (zs & Z1 & Z2). rewrite Z2. cbn [need]. destruct zs; [apply good_refused|]. cbn [gmap]. apply good_orders, as_rtsp; try assumption; [discriminate|].
    apply named_of; [exact tx_dec|exact transport_format_names|assumption].
  - split_has. destruct M as (zs & Z1 & Z2). rewrite Z2. cbn [need]. destruct zs; [apply good_refused|]. cbn [gmap]. apply good_orders, as_rtp; try assumption; [discriminate|].
    apply named_of; [exact tx_dec|exact transport_format_names|assumption].
  - destruct o as [id|]; [apply good_orders, as_drop; assumption|apply good_refused].
  - assert (G : forall i : str -> got rxOrder, match o with Some id => if known id then Refused else i id | None => i fresh end = Refused \/
                          ((forall id, o = Some id -> known id = false) /\ match o with Some id => if known id then Refused else i id | None => i fresh end = i (given o fresh))).
    { intros i. destruct o as [id|]; [destruct (known id) eqn:K; [left; reflexivity|right; split; [intros ? E; injection E as <-; exact K|reflexivity]]|right; split; [discriminate|reflexivity]]. }
    match goal with |- good _ _ _ (gmap _ (match o with Some id => if known id then Refused else _ | None => _ end)) => idtac end.
    match goal with |- context [match o with Some id => if known id then Refused else @?i id | None => _ end] => destruct (G i) as [E|[K E]]; cbv beta in E; rewrite E; clear E G end; [apply good_refused|].
    destruct (isSome o1 && (isSome o2 && true)) eqn:B.
    + destruct o1 as [u|], o2 as [pn|]; try discriminate. cbn [need gmap]. apply good_orders, as_url; assumption.
    + assert (A : absent c "uri" \/ absent c "progName") by (destruct o1; [|left; assumption]; destruct o2; [discriminate|right; assumption]).
      destruct o3 as [l|]; [|apply good_refused]. destruct M3 as (M3 & subs & S0). destruct (subs_unknown l subs S0) as [K0|E]; [|rewrite E; apply good_refused].
      rewrite (subs_known l subs S0 K0). cbn [gmap]. apply good_orders. eapply as_streams; eassumption.
  - destruct o as [id|]; cbn [maybe] in M.
    + rewrite (child_member _ _ _ M). apply good_orders, as_close, M.
    + rewrite (child_absent _ _ M). apply good_refused.
Qed.

(** *** A parameter that is missing. *)
Lemma has_missing ks c k : In k ks -> absent c k -> has ks c = false.
Proof.
  intros I0 N. unfold has. induction ks as [|x ks IH]; [destruct I0|]. cbn [forallb]. destruct I0 as [->|I0]; [rewrite (child_absent c k N); reflexivity|].
  rewrite (IH I0). apply andb_false_r.
Qed.
Lemma incomplete f a k c : needed f a k -> absent c k -> event f (lit a) (Some (Obj c)) = Refused.
Proof.
  intros (l & I1 & I2) N. destruct f; cbn [required In] in I1; repeat destruct I1 as [E|I1]; try contradiction; injection E as <- <-; open;
  try match goal with |- context [has ?ks c] => rewrite (has_missing ks c k) by (cbn [In] in *; tauto); reflexivity end.
  all: destruct I2 as [<-|[]]; rewrite ?(rd_guarded _ _ _ _ _ (reads_absent nodeText isText c _ N)), ?(rd_guarded _ _ _ _ _ (reads_absent toInt isNum c _ N)), ?(child_absent c _ N); reflexivity.
Qed.
Lemma session_incomplete kn fresh c : absent c "uri" \/ absent c "progName" -> absent c "subsessions" -> event (Receiver kn fresh) (lit "addSession") (Some (Obj c)) = Refused.
Proof.
  intros A N. assert (HN : has ["uri"; "progName"] c = false) by (destruct A as [A|A]; eapply has_missing; try exact A; cbn [In]; tauto).
  open. rewrite HN, (rd_take _ _ _ _ _ (reads_absent elements (fun _ => true) c _ N)). destruct (guarded isText nodeText "id" c) as [i|]; [destruct (kn i)|]; reflexivity.
Qed.

(** *** Parameters that are no object. *)
Lemma no_object f a p : known f a -> a <> lit "muteMaster" -> a <> lit "forceIntra" -> (forall c, p <> Obj c) -> event f a (Some p) = Ends.
Proof.
  intros (b & l & I0 & ->) N1 N2 NO. destruct f; cbn [table In] in I0; repeat destruct I0 as [E|I0]; try contradiction; injection E as <- <-; try congruence;
  destruct p; try (exfalso; eapply NO; reflexivity); reflexivity.
Qed.

(** *** Calls. *)
Lemma unescape_plain s : ~ In "\"%char s -> unescape s = s.
Proof.
  induction s as [|c t IH]; intros N; [reflexivity|]. cbn [In] in N. cbn [unescape].
  destruct (is c bslash) eqn:B; [apply Ascii.eqb_eq in B; exfalso; apply N; left; exact B|]. rewrite IH by tauto. reflexivity.
Qed.
Lemma plain_float v : plain v -> toFloat (floatNode v) = Some v.
Proof. intros [->|[S0 O0]]; [exact C86_zero_arrives|apply C86_short_decimal_arrives; assumption]. Qed.
Lemma ofInt_back z : int32 z -> toInt (ofInt z) = Some z.
Proof. intros H. cbn [toInt ofInt]. rewrite (intIs_value _ z (intText_is z H)). reflexivity. Qed.
Lemma ofBool_back b : toBool (ofBool b) = Some b.
Proof. destruct b; reflexivity. Qed.
Lemma ofText_back s : ~ In "\"%char s -> nodeText (ofText s) = Some s.
Proof. intros N. cbn [nodeText ofText]. rewrite unescape_plain by exact N. reflexivity. Qed.
Lemma digits_no_escape s t : digits s t -> ~ In "\"%char s.
Proof. intros D I0. destruct (digits_spec s t D) as (_ & _ & F). rewrite Forall_forall in F. apply (F _ I0). reflexivity. Qed.
Ltac members := repeat match goal with |- context [get ?k (?x :: ?l)] =>
  let v := eval cbv [get child streq lit list_ascii_of_string list_eq_dec list_rec list_rect ascii_dec ascii_rec ascii_rect bool_dec bool_rec bool_rect sumbool_rec sumbool_rect] in (get k (x :: l)) in
  change (get k (x :: l)) with v end.
Lemma call_arrives f cl o : meant f cl o -> event f (fst cl) (snd cl) = Orders o.
Proof.
  destruct 1.
  all: repeat match goal with H : Forall _ (_ :: _) |- _ => inversion H; clear H; subst | H : Forall _ [] |- _ => clear H end.
  all: unfold apiChangeChannelGain, apiMuteChannel, apiSoloChannel, apiChangeMasterGain, apiMuteMaster, apiConfigChannel, apiConfigureMixer, apiConfigCrop, apiConfigureSplitter,
    apiConfigureResampler, apiConfigureDecoder, apiConfigureAudioEncoder, apiConfigureEncoder, apiSetReference, params; cbn [fst snd map]; open; unfold has, take, opt, guarded; cbn [forallb]; members;
    cbn [andb]; repeat match goal with |- context [isNum (ofInt ?z)] => change (isNum (ofInt z)) with true | |- context [isBool (ofBool ?z)] => change (isBool (ofBool z)) with true
                       | |- context [isText (ofText ?z)] => change (isText (ofText z)) with true end; cbn [gmap need];
    rewrite ?ofInt_back, ?plain_float by assumption; rewrite ?ofBool_back; cbn [gmap need option_map dflt]; try reflexivity.
  - match goal with k : VidModel.chan |- _ => destruct k end. reflexivity.
  - rewrite ofText_back by (destruct f; vm_compute; intuition discriminate). cbn [option_map need gmap]. unfold chars. rewrite text_lit, (proj1 sample_format_names). reflexivity.
  - rewrite ofText_back by (destruct k; vm_compute; intuition discriminate). cbn [option_map need gmap]. unfold chars. rewrite text_lit, (proj1 audio_codec_names). reflexivity.
  - rewrite ofText_back by assumption. reflexivity.
  - destruct (decimal_digits 20 t) as [D N]; [change (10 ^ Z.of_nat 20) with 100000000000000000000; lia|]. rewrite ofText_back by (eapply digits_no_escape, D).
    rewrite (stoull_digits _ t D) by (try (apply N; discriminate); lia). cbn [need gmap]. unfold signed64. replace (t <? 2 ^ 63) with true by (symmetry; apply Z.ltb_lt; lia). reflexivity.
Qed.
