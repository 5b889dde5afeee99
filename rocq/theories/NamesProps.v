(** C20: names convert back and forth. *)
From Coq Require Import String.
From Verif Require Import Base PipeModel NamesModel.
Local Open Scope string_scope.

(** What the property asks of a pair of conversions: the name of every value leads back to that
    value, and no other text leads to a value other than the 'none' one. (So distinct values
    have distinct names.) *)
Definition faithful {A} (none : A) (name : A -> string) (value : string -> A) : Prop :=
  (forall x, value (name x) = x) /\ (forall s, value s <> none -> s = name (value s)).

Lemma faithful_unknown {A} none name value : @faithful A none name value ->
  forall s, (forall x, x <> none -> s <> name x) -> (forall x y : A, {x = y} + {x <> y}) -> value s = none.
Proof. intros [_ H2] s Hs D. destruct (D (value s) none) as [E|N]; [exact E|]. exfalso. exact (Hs _ N (H2 s N)). Qed.
Lemma faithful_injective {A} none name value : @faithful A none name value -> forall x y, name x = name y -> x = y.
Proof. intros [H1 _] x y H. rewrite <- (H1 x), <- (H1 y), H. reflexivity. Qed.

Ltac cases :=
  repeat match goal with |- context [?a =? ?b] => destruct (String.eqb_spec a b); [subst; auto|] end.

Theorem sample_format_names : faithful S_NONE getSampleFormatAsString getSampleFormatFromString.
Proof. split; [intros []; reflexivity|]. intros s. unfold getSampleFormatFromString. cases. congruence. Qed.
Theorem audio_codec_names : faithful AC_NONE getAudioCodecAsString getAudioCodecFromString.
Proof. split; [intros []; reflexivity|]. intros s. unfold getAudioCodecFromString. cases. congruence. Qed.
Theorem video_codec_names : faithful VC_NONE getVideoCodecAsString getVideoCodecFromString.
Proof. split; [intros []; reflexivity|]. intros s. unfold getVideoCodecFromString. cases. congruence. Qed.
Theorem filter_type_names : faithful FT_NONE getFilterTypeAsString getFilterTypeFromString.
Proof. split; [intros []; reflexivity|]. intros s. unfold getFilterTypeFromString. cases. congruence. Qed.
Theorem role_names : faithful FR_NONE getRoleAsString getRoleTypeFromString.
Proof. split; [intros []; reflexivity|]. intros s. unfold getRoleTypeFromString. cases. congruence. Qed.
Theorem transport_format_names : faithful TX_NONE getTxFormatAsString getTxFormatFromString.
Proof. split; [intros []; reflexivity|]. intros s. unfold getTxFormatFromString. cases. congruence. Qed.

(** Pixel formats: the two directions use different names. What holds: names are distinct, each
    text stands for at most one format, and unknown texts for none. *)
Theorem pixel_format_names_partial :
  (forall p q, getPixTypeAsString p = getPixTypeAsString q -> p = q) /\
  (forall s, getPixTypeFromString s <> P_NONE -> In s ["YUYV"; "YUV420"; "RGB24"; "YUV422"; "YUVJ"]) /\
  (forall s t, getPixTypeFromString s <> P_NONE -> getPixTypeFromString s = getPixTypeFromString t -> s = t).
Proof.
  split; [intros [] []; try reflexivity; discriminate|].
  assert (K : forall s, getPixTypeFromString s <> P_NONE -> In s ["YUYV"; "YUV420"; "RGB24"; "YUV422"; "YUVJ"]).
  { intros s. unfold getPixTypeFromString. cases; cbn; try tauto. }
  split; [exact K|]. intros s t Hs E. pose proof (K s Hs) as Ks. pose proof (K t ltac:(congruence)) as Kt. cbn in Ks, Kt.
  repeat match goal with H : _ \/ _ |- _ => destruct H as [H|H] end; try contradiction; subst; try reflexivity; discriminate.
Qed.
(** Only RGB24 comes back from its own name; RGB32 and YUV444P have no name that leads to them. *)
Theorem pixel_format_names_refuted :
  (forall p, getPixTypeFromString (getPixTypeAsString p) = p <-> p = RGB24 \/ p = P_NONE) /\
  (forall s, getPixTypeFromString s <> RGB32 /\ getPixTypeFromString s <> YUV444P).
Proof.
  split.
  - intros []; cbn; split; intros H; try discriminate; auto; destruct H; discriminate.
  - intros s. unfold getPixTypeFromString. split; cases; discriminate.
Qed.

(** The names libav uses for codecs. *)
Theorem libav_video_names s :
  match getVideoCodecFromLibavString s with
  | H264 => s = "h264" | H265 => s = "hevc" | VP8 => s = "vp8" | MJPEG => s = "mjpeg" | RAW => s = "rawvideo"
  | VC_NONE => ~ In s ["h264"; "hevc"; "vp8"; "mjpeg"; "rawvideo"]
  end.
Proof.
  unfold getVideoCodecFromLibavString. cases; cbn; try reflexivity. intros H.
  repeat match type of H with _ \/ _ => destruct H as [H|H]; [congruence|] end. exact H.
Qed.
Theorem libav_audio_names s :
  match getAudioCodecFromLibavString s with
  | G711 => s = "pcm_alaw" \/ s = "pcm_mulaw"
  | PCMU => String.prefix "pcm_u" s = true
  | PCM => String.prefix "pcm_s" s = true
  | OPUS => s = "opus" | AAC => s = "aac" | MP3 => s = "mp3"
  | AC_NONE => ~ In s ["pcm_alaw"; "pcm_mulaw"; "opus"; "aac"; "mp3"] /\
               String.prefix "pcm_u" s = false /\ String.prefix "pcm_s" s = false
  end.
Proof.
  assert (P : forall t, String.length t = 5 -> (substring 0 5 s =? t) = String.prefix t s).
  { intros t Ht. destruct (String.eqb_spec (substring 0 5 s) t) as [E|E]; symmetry.
    - apply prefix_correct. rewrite Ht. exact E.
    - apply not_true_is_false. intros H. apply prefix_correct in H. rewrite Ht in H. congruence. }
  unfold getAudioCodecFromLibavString. rewrite !P by reflexivity.
  destruct (String.eqb_spec s "pcm_alaw"); [cbn [orb]; auto|]. destruct (String.eqb_spec s "pcm_mulaw"); [cbn [orb]; auto|]. cbn [orb].
  destruct (prefix "pcm_u" s) eqn:E1; [reflexivity|]. destruct (String.eqb_spec s "opus"); [assumption|].
  destruct (prefix "pcm_s" s) eqn:E2; [reflexivity|]. destruct (String.eqb_spec s "aac"); [assumption|]. destruct (String.eqb_spec s "mp3"); [assumption|].
  split; [|auto]. cbn. intuition congruence.
Qed.

Theorem bytes_per_sample f : getBytesPerSampleFromFormat f = 0 <-> f = S_NONE.
Proof. destruct f; split; intros H; try reflexivity; discriminate. Qed.

Example names_instance : getFilterTypeFromString "videoSplitter" = VIDEO_SPLITTER /\ getFilterTypeFromString "VideoSplitter" = FT_NONE /\
  getAudioCodecFromLibavString "pcm_s16le" = PCM.
Proof. repeat split. Qed.

Print Assumptions sample_format_names.
Print Assumptions audio_codec_names.
Print Assumptions video_codec_names.
Print Assumptions filter_type_names.
Print Assumptions role_names.
Print Assumptions transport_format_names.
Print Assumptions pixel_format_names_partial.
Print Assumptions pixel_format_names_refuted.
Print Assumptions libav_video_names.
Print Assumptions libav_audio_names.
Print Assumptions bytes_per_sample.
