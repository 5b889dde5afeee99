(** C21: initialisation segments. *)
From Coq Require Import String.
From Verif Require Import Base Bytes IsoModel IsoSpec IsoProofs DashModel.
Local Open Scope list_scope.
Local Open Scope Z_scope.

Definition tkhdP : list string := ["moov"; "trak"; "tkhd"]%string.
Definition trexP : list string := ["moov"; "mvex"; "trex"]%string.
Definition mdhdP : list string := ["moov"; "trak"; "mdia"; "mdhd"]%string.
Definition hdlrP : list string := ["moov"; "trak"; "mdia"; "hdlr"]%string.
Definition stsdP : list string := ["moov"; "trak"; "mdia"; "minf"; "stbl"; "stsd"]%string.
Definition entryName (m : media) : string := (match m with VIDEO_AVC => "avc1" | VIDEO_HEVC => "hev1" | _ => "mp4a" end)%string.
Definition configName (m : media) : string := (match m with VIDEO_AVC => "avcC" | VIDEO_HEVC => "hvcC" | _ => "esds" end)%string.

(** For every video type, every decoder configuration that fits the 32 bit sizes, every picture size
    and time scale, whatever the state of the context: an initialisation segment is written unless
    the configuration or a dimension is empty; it parses completely into the expected boxes; the
    configuration box holds exactly the configuration; the dimensions (16.16 in the track header,
    plain in the sample entry) and the time scale are the given ones; one track, of type video. *)
Theorem video_init_wellformed m c cfg w h tb :
  isVideo m = true -> cmedia c = m -> 0 < w < 65536 -> 0 < h < 65536 -> 0 <= tb < 4294967296 -> 1 <= len cfg < 4294966272 ->
  exists out c' bs,
    new_init_video_handler cfg (fill_video_context c w h tb) = Some (out, c') /\
    parseFile out = Some bs /\ shapes bs (initShape "vmhd" (entryName m) (configName m)) /\
    raw bs (stsdP ++ [entryName m; configName m]) = Some cfg /\
    field bs tkhdP 76 4 = Some (w * 65536) /\ field bs tkhdP 80 4 = Some (h * 65536) /\
    field bs (stsdP ++ [entryName m]) 24 2 = Some w /\ field bs (stsdP ++ [entryName m]) 26 2 = Some h /\
    field bs mdhdP 12 4 = Some tb /\
    field bs tkhdP 12 4 = Some 1 /\ field bs trexP 4 4 = Some 1 /\
    field bs hdlrP 8 4 = Some (rd (tag "vide")) /\ field bs stsdP 4 4 = Some 1.
Proof.
  intros V CM W H TB L.
  set (c1 := withConfig (fill_video_context c w h tb) cfg).
  assert (EW: cwidth c1 = w) by (apply Z.mod_small; lia).
  assert (EH: cheight c1 = h) by (apply Z.mod_small; lia).
  assert (ET: ctimebase c1 = tb) by (apply Z.mod_small; lia).
  assert (G: new_init_video_handler cfg (fill_video_context c w h tb) = Some (write_ftyp ++ write_moov m c1, c1)).
  { unfold new_init_video_handler, initVideoGenerator. destruct (Z.ltb_spec (len cfg) 1); [lia|].
    change (cwidth (fill_video_context c w h tb)) with (cwidth c1). change (cheight (fill_video_context c w h tb)) with (cheight c1).
    rewrite EW, EH. destruct (Z.eqb_spec w 0); [lia|]. destruct (Z.eqb_spec h 0); [lia|]. cbn [orb].
    change (cmedia (fill_video_context c w h tb)) with (cmedia c). rewrite CM, V. cbn [negb]. cbv zeta.
    fold c1. change (cmedia c1) with (cmedia c). rewrite CM. reflexivity. }
  exists (write_ftyp ++ write_moov m c1), c1, (initTree m c1). split; [exact G|].
  split; [apply gram_file, gram_init; unfold small; change (cconfig c1) with cfg; lia|].
  assert (R4: forall x, 0 <= x < 4294967296 -> Some (rd (be 4 x)) = Some x) by (intros x X; f_equal; apply rd_be_id; exact X).
  assert (R2: forall x, 0 <= x < 65536 -> Some (rd (be 2 x)) = Some x) by (intros x X; f_equal; apply rd_be_id; exact X).
  destruct m; try discriminate V.
  - split; [unfold shapes; cbn; repeat split; reflexivity|]. split; [reflexivity|].
    split; [change (Some (rd (be 4 (cwidth c1 * 65536))) = Some (w * 65536)); rewrite EW; apply R4; lia|].
    split; [change (Some (rd (be 4 (cheight c1 * 65536))) = Some (h * 65536)); rewrite EH; apply R4; lia|].
    split; [change (Some (rd (be 2 (cwidth c1))) = Some w); rewrite EW; apply R2; lia|].
    split; [change (Some (rd (be 2 (cheight c1))) = Some h); rewrite EH; apply R2; lia|].
    split; [change (Some (rd (be 4 (ctimebase c1))) = Some tb); rewrite ET; apply R4; lia|].
    do 3 (split; [reflexivity|]). reflexivity.
  - split; [unfold shapes; cbn; repeat split; reflexivity|]. split; [reflexivity|].
    split; [change (Some (rd (be 4 (cwidth c1 * 65536))) = Some (w * 65536)); rewrite EW; apply R4; lia|].
    split; [change (Some (rd (be 4 (cheight c1 * 65536))) = Some (h * 65536)); rewrite EH; apply R4; lia|].
    split; [change (Some (rd (be 2 (cwidth c1))) = Some w); rewrite EW; apply R2; lia|].
    split; [change (Some (rd (be 2 (cheight c1))) = Some h); rewrite EH; apply R2; lia|].
    split; [change (Some (rd (be 4 (ctimebase c1))) = Some tb); rewrite ET; apply R4; lia|].
    do 3 (split; [reflexivity|]). reflexivity.
Qed.

(** The same for audio, with the channel count and bits per sample of the sample entry, and the
    decoder specific info found through the descriptors of the 'esds' box, as long as the descriptor
    sizes fit in one byte. *)
Theorem audio_init_wellformed_partial c cfg ch sr bits tb sd :
  0 <= ch < 65536 -> 0 <= bits < 65536 -> 0 <= tb < 4294967296 -> 1 <= len cfg <= 104 ->
  exists out c' bs,
    init_audio_handler cfg (fill_audio_context c ch sr bits tb sd) = Some (out, c') /\
    parseFile out = Some bs /\ shapes bs (initShape "smhd" "mp4a" "esds") /\
    (exists esds, raw bs (stsdP ++ ["mp4a"; "esds"]%string) = Some esds /\ decoderInfo esds = Some cfg) /\
    field bs (stsdP ++ ["mp4a"]%string) 16 2 = Some ch /\ field bs (stsdP ++ ["mp4a"]%string) 18 2 = Some bits /\
    field bs mdhdP 12 4 = Some tb /\
    field bs tkhdP 12 4 = Some 1 /\ field bs trexP 4 4 = Some 1 /\
    field bs hdlrP 8 4 = Some (rd (tag "soun")) /\ field bs stsdP 4 4 = Some 1.
Proof.
  intros CH B TB L.
  set (c1 := withConfig (fill_audio_context c ch sr bits tb sd) cfg).
  assert (EW: cchannels c1 = ch) by (apply Z.mod_small; lia).
  assert (EH: cbits c1 = bits) by (apply Z.mod_small; lia).
  assert (ET: ctimebase c1 = tb) by (apply Z.mod_small; lia).
  assert (G: init_audio_handler cfg (fill_audio_context c ch sr bits tb sd) = Some (write_ftyp ++ write_moov AUDIO c1, c1)).
  { unfold init_audio_handler, initAudioGenerator. destruct (Z.ltb_spec (len cfg) 1); [lia|]. reflexivity. }
  exists (write_ftyp ++ write_moov AUDIO c1), c1, (initTree AUDIO c1). split; [exact G|].
  split; [apply gram_file, gram_init; unfold small; change (cconfig c1) with cfg; lia|].
  assert (R4: forall x, 0 <= x < 4294967296 -> Some (rd (be 4 x)) = Some x) by (intros x X; f_equal; apply rd_be_id; exact X).
  assert (R2: forall x, 0 <= x < 65536 -> Some (rd (be 2 x)) = Some x) by (intros x X; f_equal; apply rd_be_id; exact X).
  split; [unfold shapes; cbn; repeat split; reflexivity|]. split.
  { exists (esdsBody c1). split; [reflexivity|]. unfold decoderInfo. set (n := len cfg).
    assert (LB: exists k, length (esdsBody c1) = S (S (S k))).
    { unfold esdsBody. cbn [zeros repeat app length]. eauto. }
    destruct LB as (k & ->).
    assert (M1: (23 + n) mod 128 = 23 + n) by (apply Z.mod_small; unfold n; lia).
    assert (M2: (15 + n) mod 128 = 15 + n) by (apply Z.mod_small; unfold n; lia).
    assert (M3: n mod 128 = n) by (apply Z.mod_small; unfold n; lia).
    unfold esdsBody. change (cconfig c1) with cfg. fold n. cbv zeta. rewrite M1, M2, M3.
    set (inner := be 4 127313 ++ be 4 127309 ++ [5; n] ++ cfg ++ [6; 1; 2]).
    assert (LC: Z.to_nat n = length cfg) by (unfold n, len; lia).
    assert (LI: len inner = 13 + n) by (unfold inner; rewrite !len_app, !len_be, !len_cons, !len_nil; fold n; lia).
    set (es := be 2 1 ++ [0] ++ [4; 15 + n] ++ [64] ++ [21] ++ zeros 2 ++ zeros 1 ++ inner).
    assert (LE: len es = 23 + n) by (unfold es; rewrite !len_app, LI, !len_be, !len_cons, !len_zeros, !len_nil; lia).
    change (skipn 4 (zeros 4 ++ [3; 23 + n] ++ es)) with (3 :: 23 + n :: es).
    cbn [descriptors]. destruct (Z.leb_spec 128 (23 + n)); [unfold n in *; lia|]. destruct (Z.ltb_spec (len es) (23 + n)); [lia|]. cbn [orb].
    replace (Z.to_nat (23 + n)) with (length es) by (unfold len in LE; lia). rewrite skipn_all, firstn_all.
    change (skipn 3 es) with (4 :: 15 + n :: ([64] ++ [21] ++ zeros 2 ++ zeros 1 ++ inner)).
    set (dc := [64] ++ [21] ++ zeros 2 ++ zeros 1 ++ be 4 127313 ++ be 4 127309 ++ [5; n] ++ cfg).
    replace ([64] ++ [21] ++ zeros 2 ++ zeros 1 ++ inner) with (dc ++ [6; 1; 2]) by (unfold dc, inner; rewrite <- !app_assoc; reflexivity).
    assert (LD: len dc = 15 + n) by (unfold dc; rewrite !len_app, !len_be, !len_cons, !len_zeros, !len_nil; fold n; lia).
    destruct (Z.leb_spec 128 (15 + n)); [unfold n in *; lia|]. destruct (Z.ltb_spec (len (dc ++ [6; 1; 2])) (15 + n)) as [C|_].
    { rewrite len_app in C. change (len [6; 1; 2]) with 3 in C. lia. }
    cbn [orb].
    replace (Z.to_nat (15 + n)) with (length dc) by (unfold len in LD; lia). rewrite skipn_app_len, firstn_app_len by reflexivity.
    cbn [descriptors]. change (128 <=? 1) with false. change (len [2] <? 1) with false. cbn [orb]. change (skipn (Z.to_nat 1) [2]) with (@nil Z).
    cbn [descriptors]. change (firstn (Z.to_nat 1) [2]) with [2].
    assert (DS: skipn 13 dc = 5 :: n :: cfg) by reflexivity. rewrite DS.
    cbn [descriptors]. destruct (Z.leb_spec 128 n); [unfold n in *; lia|].
    destruct (Z.ltb_spec (len cfg) n); [unfold n in *; lia|]. cbn [orb]. rewrite LC, skipn_all, firstn_all. cbn [descriptors]. reflexivity. }
  split; [change (Some (rd (be 2 (cchannels c1))) = Some ch); rewrite EW; apply R2; lia|].
  split; [change (Some (rd (be 2 (cbits c1))) = Some bits); rewrite EH; apply R2; lia|].
  split; [change (Some (rd (be 4 (ctimebase c1))) = Some tb); rewrite ET; apply R4; lia|].
  do 3 (split; [reflexivity|]). reflexivity.
Qed.

Ltac constants := repeat (apply Forall_cons; [split; [apply Nat.leb_le; reflexivity|reflexivity]|]); apply Forall_nil.
Ltac sizes := repeat (apply Forall_cons; [reflexivity|]); apply Forall_nil.
(** The fields of an initialisation segment that do not depend on the stream have the values the
    standard asks for, and the boxes of fixed size have it. *)
Theorem video_init_constants m c cfg w h tb out c' bs :
  isVideo m = true -> cmedia c = m -> 1 <= len cfg < 4294966272 ->
  new_init_video_handler cfg (fill_video_context c w h tb) = Some (out, c') -> parseFile out = Some bs ->
  Forall (holds bs) (initConstants ++ videoConstants (entryName m)) /\ Forall (sized1 bs) (initSizes ++ videoSizes).
Proof.
  intros V CM L G P. set (c1 := withConfig (fill_video_context c w h tb) cfg).
  assert (E: out = write_ftyp ++ write_moov m c1).
  { unfold new_init_video_handler, initVideoGenerator in G. destruct (Z.ltb_spec (len cfg) 1); [lia|].
    destruct (_ || _); [discriminate|]. change (cmedia (fill_video_context c w h tb)) with (cmedia c) in G. rewrite CM, V in G. cbn [negb] in G. cbv zeta in G.
    fold c1 in G. change (cmedia c1) with (cmedia c) in G. rewrite CM in G. congruence. }
  assert (EB: bs = initTree m c1).
  { rewrite E in P. rewrite (gram_file _ (initTree m c1)) in P; [congruence|]. apply gram_init; unfold small; change (cconfig c1) with cfg; lia. }
  rewrite EB. clearbody c1. clear - V. destruct m; try discriminate V; (split; [constants|sizes]).
Qed.
Theorem audio_init_constants c cfg ch sr bits tb sd out c' bs :
  1 <= len cfg < 4294966272 ->
  init_audio_handler cfg (fill_audio_context c ch sr bits tb sd) = Some (out, c') -> parseFile out = Some bs ->
  Forall (holds bs) (initConstants ++ audioConstants) /\ Forall (sized1 bs) (initSizes ++ audioSizes).
Proof.
  intros L G P. set (c1 := withConfig (fill_audio_context c ch sr bits tb sd) cfg).
  assert (E: out = write_ftyp ++ write_moov AUDIO c1).
  { unfold init_audio_handler, initAudioGenerator in G. destruct (Z.ltb_spec (len cfg) 1); [lia|]. cbv zeta in G. fold c1 in G. congruence. }
  assert (EB: bs = initTree AUDIO c1).
  { rewrite E in P. rewrite (gram_file _ (initTree AUDIO c1)) in P; [congruence|]. apply gram_init; unfold small; change (cconfig c1) with cfg; lia. }
  rewrite EB. clearbody c1. clear. split; [constants|sizes].
Qed.

(** What the audio sample entry announces as its rate (the high 16 bits of a 16.16 number) is the
    time base, and the fraction is the sample rate: 48000 Hz reads as 48000.73 Hz. *)
Theorem audio_rate_refuted c cfg ch sr bits tb sd out c' bs :
  init_audio_handler cfg (fill_audio_context c ch sr bits tb sd) = Some (out, c') -> len cfg < 4294966272 ->
  0 <= tb < 4294967296 -> 0 < sr < 65536 -> parseFile out = Some bs ->
  field bs (stsdP ++ ["mp4a"]%string) 24 4 = Some (tb mod 65536 * 65536 + sr) /\ field bs (stsdP ++ ["mp4a"]%string) 24 4 <> Some (sr * 65536).
Proof.
  intros G L TB SR P. set (c1 := withConfig (fill_audio_context c ch sr bits tb sd) cfg).
  unfold init_audio_handler, initAudioGenerator in G. destruct (len cfg <? 1); [discriminate|]. cbv zeta in G. fold c1 in G.
  assert (E: out = write_ftyp ++ write_moov AUDIO c1) by (symmetry; apply (some_pair _ _ _ _ _ _ G)).
  rewrite E, (gram_file _ _ (gram_init AUDIO c1 L)) in P. injection P as <-.
  assert (F: field (initTree AUDIO c1) (stsdP ++ ["mp4a"]%string) 24 4 = Some (tb mod 65536 * 65536 + sr)).
  { change (field (initTree AUDIO c1) (stsdP ++ ["mp4a"]%string) 24 4) with (Some (rd (be 2 (ctimebase c1) ++ be 2 (crate c1)))).
    f_equal. change (crate c1) with (sr mod 65536). change (ctimebase c1) with (tb mod 4294967296).
    rewrite (Z.mod_small sr), (Z.mod_small tb) by lia.
    assert (A: forall a b, rd (a ++ be 2 b) = rd a * 65536 + rd (be 2 b)).
    { intros a b. cbn [be]. rewrite app_nil_l. unfold rd. rewrite fold_left_app. cbn. lia. }
    rewrite A, !rd_be. change (256 ^ Z.of_nat 2) with 65536. rewrite (Z.mod_small sr) by lia. reflexivity. }
  split; [exact F|]. rewrite F. intros X. injection X as X.
  pose proof (Z.mod_pos_bound tb 65536 ltac:(lia)). lia.
Qed.

(** A configuration of 105 bytes or more makes the descriptor sizes wrong. *)
Theorem long_audio_config_refuted : exists cfg c out c' bs esds,
  init_audio_handler cfg c = Some (out, c') /\ parseFile out = Some bs /\ raw bs (stsdP ++ ["mp4a"; "esds"]%string) = Some esds /\
  decoderInfo esds <> Some cfg.
Proof.
  set (cfg := repeat 0 105). destruct (generate_context AUDIO 0 0) as [c|] eqn:E; [|discriminate].
  exists cfg, c. unfold init_audio_handler, initAudioGenerator. change (len cfg <? 1) with false. cbn match. cbv zeta.
  eexists _, _, (initTree AUDIO (withConfig c cfg)), (esdsBody (withConfig c cfg)). split; [reflexivity|].
  split; [apply gram_file, gram_init; unfold small; change (cconfig (withConfig c cfg)) with cfg; reflexivity|]. split; [reflexivity|].
  vm_compute. discriminate.
Qed.

(** A picture of 66176 columns is announced as 640 columns wide: the context keeps 16 bits. *)
Theorem wide_picture_refuted : exists cfg c out c' bs,
  new_init_video_handler cfg (fill_video_context c 66176 480 90000) = Some (out, c') /\ parseFile out = Some bs /\
  field bs tkhdP 76 4 = Some (640 * 65536).
Proof.
  set (c := mkCtx VIDEO_AVC [] [] 0 0 0 0 0 0 0 0 0 0 [] 3841 0 0 0).
  exists [1], c. eexists _, _, (initTree VIDEO_AVC (withConfig (fill_video_context c 66176 480 90000) [1])). split; [reflexivity|]. split; [apply gram_file, gram_init; reflexivity|]. reflexivity.
Qed.

(** The movie header announces 1 as the identifier of the next track although track 1 exists, and the
    default sample duration of a video track is whatever the context's memory held. *)
Theorem next_track_identifier_refuted m c cfg out c' bs : isVideo m = true -> cmedia c = m ->
  new_init_video_handler cfg c = Some (out, c') -> len cfg < 4294966272 -> parseFile out = Some bs ->
  field bs ["moov"; "mvhd"]%string 96 4 = field bs tkhdP 12 4 /\ field bs trexP 12 4 = Some (csampledur c mod 4294967296).
Proof.
  intros V CM G L P. unfold new_init_video_handler, initVideoGenerator in G. destruct (len cfg <? 1); [discriminate|].
  destruct (_ || _); [discriminate|]. rewrite CM, V in G. cbn [negb] in G. cbv zeta in G. set (c1 := withConfig c cfg) in *.
  change (cmedia c1) with (cmedia c) in G. rewrite CM in G.
  assert (E: out = write_ftyp ++ write_moov m c1) by (symmetry; apply (some_pair _ _ _ _ _ _ G)).
  rewrite E, (gram_file _ _ (gram_init m c1 L)) in P. injection P as <-. split; [reflexivity|].
  change (field (initTree m c1) trexP 12 4) with (Some (rd (be 4 (csampledur c)))). rewrite rd_be. reflexivity.
Qed.

(** Example: a 640x480 picture, time base 90000, a configuration of 40 bytes. *)
Example video_init_case : exists c cfg, cmedia c = VIDEO_AVC /\ len cfg = 40 /\
  exists out c', new_init_video_handler cfg (fill_video_context c 640 480 90000) = Some (out, c') /\ len out = 659.
Proof.
  exists (mkCtx VIDEO_AVC [] [] 0 0 0 0 0 0 0 0 0 0 [] 3841 0 0 0), (repeat 7 40). split; [reflexivity|]. split; [reflexivity|]. eexists _, _. split; [reflexivity|]. vm_compute. reflexivity.
Qed.

Print Assumptions video_init_wellformed.
Print Assumptions audio_init_wellformed_partial.
Print Assumptions video_init_constants.
Print Assumptions audio_init_constants.
Print Assumptions audio_rate_refuted.
Print Assumptions long_audio_config_refuted.
Print Assumptions wide_picture_refuted.
Print Assumptions next_track_identifier_refuted.
