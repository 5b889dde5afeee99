(* What a user of the demuxer expects: the filter lists the streams of the
   source opened last, as libav describes them. *)
From Coq Require Import String ZArith List Bool.
From Verif Require Import NamesModel AnnModel DmxModel OpnModel.
Import ListNotations.
Local Open Scope list_scope.
Local Open Scope Z_scope.

(* The names of libav the project has a codec for. *)
Inductive sounds : string -> ACodecType -> Prop :=
| s_aac : sounds "aac" AAC
| s_mp3 : sounds "mp3" MP3
| s_opus : sounds "opus" OPUS
| s_pcm r : sounds (append "pcm_s" r) PCM.
Inductive pictures : string -> VCodecType -> Prop :=
| p_h264 : pictures "h264" H264
| p_h265 : pictures "hevc" H265
| p_vp8 : pictures "vp8" VP8
| p_mjpeg : pictures "mjpeg" MJPEG
| p_raw : pictures "rawvideo" RAW.

(* The kinds told. *)
Definition isSound (i : sinfo) : Prop := exists k f r c, siInfo i = Some (IAudio k f r c).
Definition isPicture (i : sinfo) : Prop := exists k a f, siInfo i = Some (IVideo k a f).
Definition typeOf (v : avstream) : libtype := match vDesc v with Some (t, _) => t | None => LT_OTHER end.

(* The streams a filter after the demuxer can be connected to: known coded
   audio, PCM in a format of the project's, and H.264, H.265 and VP8 video. *)
Definition ours (f : libfmt) : bool :=
  match f with L_U8 | L_S16 | L_FLT | L_U8P | L_S16P | L_FLTP => true | _ => false end.
Definition pcmName (s : string) : bool := prefix "pcm_s" s || prefix "pcm_u" s.
Definition connectable (v : avstream) : bool :=
  match vDesc v with
  | Some (LT_AUDIO, s) =>
    existsb (String.eqb s) ["aac"; "mp3"; "opus"; "pcm_alaw"; "pcm_mulaw"]%string || (pcmName s && ours (vFmt v))
  | Some (LT_VIDEO, s) => existsb (String.eqb s) ["h264"; "hevc"; "vp8"]%string
  | _ => false
  end.
Definition rawVideo (v : avstream) : bool :=
  match vDesc v with Some (LT_VIDEO, s) => String.eqb s "rawvideo" | _ => false end.

(* The source opened last. *)
Definition streamsOf (a : answer) : list avstream := match a with Streams l _ _ => l | _ => [] end.
Definition opensWell (a : answer) : bool := match a with Streams _ _ _ => true | _ => false end.
Definition packetsOf (a : answer) : list packet := match a with Streams _ _ s => s | NoInfo s => s | NoOpen => [] end.
Definition filterOf (a : answer) : bool := match a with Streams _ f _ => f | _ => false end.
Fixpoint lastOpen (cur : string * answer) (l : list op) : string * answer :=
  match l with [] => cur | Open u a :: r => lastOpen (u, a) r | _ :: r => lastOpen cur r end.

(* What the user sees, by the streams [cur] of the source opened last and the
   writers in use.  [W_told v]: told the information of stream [v]. *)
Inductive want := W (b : bool) | W_told (v : avstream).
Definition at_ (l : list avstream) (w : Z) : option avstream := if w <? 0 then None else nth_error l (Z.to_nat w).
Definition used (w : Z) (q : list Z) : bool := existsb (Z.eqb w) q.
Definition want1 (cur : list avstream) (q : list Z) (x : op) : list avstream * list Z * want :=
  match x with
  | Open _ a => (streamsOf a, q, W (opensWell a))
  | Connect w =>
    let ok := (Nat.ltb (List.length q) 16) && negb (used w q) &&
              match at_ cur w with Some v => connectable v | None => false end in
    (cur, if ok then w :: q else q, W ok)
  | Disconnect w => (cur, filter (fun y => negb (y =? w)) q, W true)
  | Look w => (cur, q, if used w q then match at_ cur w with Some v => W_told v | None => W false end else W false)
  end.
Fixpoint wants (cur : list avstream) (q : list Z) (l : list op) : list want :=
  match l with [] => [] | x :: r => let '(c, q', y) := want1 cur q x in y :: wants c q' r end.

(* A careful user opens a source only while nothing is connected, and connects
   only streams that are listed and are not raw video. *)
Fixpoint careful (cur : list avstream) (q : list Z) (l : list op) : Prop :=
  match l with
  | [] => True
  | x :: r =>
    match x with
    | Open _ _ => q = []
    | Connect w => exists v, at_ cur w = Some v /\ rawVideo v = false
    | _ => True
    end /\ let '(c, q', _) := want1 cur q x in careful c q' r
  end.

(* [v] is told by [i]: its kind, its own data, and, for the codecs the project
   has a name for, the codec, the rate and the channels. *)
Record tells (v : avstream) (i : sinfo) : Prop := {
  t_sound : isSound i <-> typeOf v = LT_AUDIO;
  t_picture : isPicture i <-> typeOf v = LT_VIDEO;
  t_data : vDesc v <> None -> siExtra i = vExtra v;
  t_scodec : forall s k, vDesc v = Some (LT_AUDIO, s) -> sounds s k ->
    exists f, siInfo i = Some (IAudio k f (vRate v) (vCh v)) /\
              (k <> PCM -> f = S16) /\
              (k = PCM -> (vFmt v = L_U8 -> f = U8) /\ (vFmt v = L_S16 -> f = S16) /\ (vFmt v = L_FLT -> f = FLT) /\
                          (vFmt v = L_U8P -> f = U8P) /\ (vFmt v = L_S16P -> f = S16P) /\ (vFmt v = L_FLTP -> f = FLTP) /\
                          (ours (vFmt v) = false -> f = S_NONE));
  t_vcodec : forall s k, vDesc v = Some (LT_VIDEO, s) -> pictures s k ->
    exists a f, siInfo i = Some (IVideo k a f);
  (* and no other stream is said to be of such a codec *)
  t_snone : forall s k f r c, vDesc v = Some (LT_AUDIO, s) -> siInfo i = Some (IAudio k f r c) ->
    k = AC_NONE \/ sounds s k \/ (k = G711 /\ (s = "pcm_alaw" \/ s = "pcm_mulaw")%string) \/
    (k = PCMU /\ exists t, s = append "pcm_u" t);
  t_vnone : forall s k a f, vDesc v = Some (LT_VIDEO, s) -> siInfo i = Some (IVideo k a f) -> k = VC_NONE \/ pictures s k
}.
Definition meets (y : out) (w : want) : Prop :=
  match w, y with
  | W b, Done b' => b = b'
  | W_told v, Info i => tells v i
  | _, _ => False
  end.

(* H.264 in the form of MP4 files (parameter sets of version 1, no start codes). *)
Definition avcc (v : avstream) : bool :=
  match vDesc v with
  | Some (LT_VIDEO, s) => String.eqb s "h264" && (4 <? Z.of_nat (List.length (vExtra v))) && negb (nth 0 (vExtra v) 0 =? 0)
  | _ => false
  end.
(* Filters made beyond the first of an opening. *)
Definition beyond (a : answer) : nat :=
  if filterOf a then pred (List.length (filter avcc (streamsOf a))) else 0.
Fixpoint surplus (l : list op) : nat :=
  match l with [] => 0%nat | Open _ a :: r => (beyond a + surplus r)%nat | _ :: r => surplus r end.
