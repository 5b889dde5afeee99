(** Model of the text of the DASH manifest: MpdManager with all its attributes (src/modules/dasher/MpdManager.cpp), the
    document it makes, and the text tinyxml2 makes of the document.

    tinyxml2 is a library outside the repository. Its part is written out here from its documentation: SetAttribute adds
    or replaces an attribute, SaveFile prints one element per line, indented by four spaces per level, with the five
    predefined entities for the characters that need one in an attribute and three in a text. The texts of dates
    (std::strftime of "%FT%T") are a parameter. Simplification: file errors are not modelled. *)
From Coq Require Import Ascii String.
From Verif Require Import Base Bytes JsonModel CtlModel MpdModel.
Local Open Scope string_scope.
Local Open Scope list_scope.
Local Open Scope Z_scope.

(** *** Documents: an element has elements inside, or a text. *)
Definition attrs := list (str * str).
(** tinyxml2's XMLElement, as MpdManager.cpp 65-114 builds it. *)
Inductive xml := El (name : str) (a : attrs) (kids : list xml) | Leaf (name : str) (a : attrs) (text : str).
(** XMLElement::SetAttribute (tinyxml2). *)
Fixpoint setAttr (k v : str) (a : attrs) : attrs :=
  match a with [] => [(k, v)] | (k', v') :: t => if streqb k k' then (k, v) :: t else (k', v') :: setAttr k v t end.
(** A chain of SetAttribute, MpdManager.cpp 83-95. *)
Definition sets (l : list (string * str)) : attrs := fold_left (fun a x => setAttr (lit (fst x)) (snd x) a) l [].

(** *** The text of a document (tinyxml2's XMLPrinter). *)
Definition entity (all : bool) (c : ascii) : str :=
  if is c "&" then lit "&amp;" else if is c "<" then lit "&lt;" else if is c ">" then lit "&gt;"
  else if all && is c """" then lit "&quot;" else if all && is c "'" then lit "&apos;" else [c].
(** tinyxml2's XMLPrinter, called by SaveFile in MpdManager.cpp 113. *)
Definition quoted (all : bool) (s : str) : str := flat_map (entity all) s.
(** tinyxml2's XMLPrinter, called by SaveFile in MpdManager.cpp 113. *)
Definition LF : ascii := ascii_of_N 10.
(** tinyxml2's XMLPrinter, called by SaveFile in MpdManager.cpp 113. *)
Definition spaces (n : nat) : str := repeat " "%char (4 * n).
(** tinyxml2's XMLPrinter, called by SaveFile in MpdManager.cpp 113. *)
Definition attrText (a : attrs) : str := flat_map (fun x => " "%char :: fst x ++ "="%char :: """"%char :: quoted true (snd x) ++ [""""%char]) a.
(** tinyxml2's XMLPrinter, called by SaveFile in MpdManager.cpp 113. *)
Fixpoint print (depth : nat) (x : xml) : str :=
  match x with
  | Leaf n a t => spaces depth ++ "<"%char :: n ++ attrText a ++ ">"%char :: quoted false t ++ "<"%char :: "/"%char :: n ++ [">"%char]
  | El n a [] => spaces depth ++ "<"%char :: n ++ attrText a ++ ["/"%char; ">"%char]
  | El n a ks => spaces depth ++ "<"%char :: n ++ attrText a ++ ">"%char :: flat_map (fun k => LF :: print (S depth) k) ks ++ LF :: spaces depth ++ "<"%char :: "/"%char :: n ++ [">"%char]
  end.
(** tinyxml2's XMLPrinter, called by SaveFile in MpdManager.cpp 113. *)
Definition document (x : xml) : str := print 0 x ++ [LF].

(** *** Representations, in a std::map: by the order of their names. *)
Fixpoint sless (a b : str) : bool :=
  match a, b with
  | [], _ :: _ => true
  | c :: s, d :: t => if (N_of_ascii c <? N_of_ascii d)%N then true else if (N_of_ascii d <? N_of_ascii c)%N then false else sless s t
  | _, _ => false
  end.
Section Map.
Context {A : Type}.
(** std::map of representations, MpdManager.hh 242-313. *)
Fixpoint rset (k : str) (v : A) (m : list (str * A)) : list (str * A) :=
  match m with
  | [] => [(k, v)]
  | (k', v') :: t => if streqb k k' then (k, v) :: t else if sless k k' then (k, v) :: m else (k', v') :: rset k v t
  end.
(** std::map of representations, MpdManager.hh 242-313. *)
Fixpoint rfind (k : str) (m : list (str * A)) : option A :=
  match m with [] => None | (k', v') :: t => if streqb k k' then Some v' else rfind k t end.
(** std::map of representations, MpdManager.hh 242-313. *)
Definition rdel (k : str) (m : list (str * A)) : list (str * A) := filter (fun x => negb (streqb k (fst x))) m.
End Map.
(** MpdManager.cpp: VideoRepresentation 489-508; AudioRepresentation 510-529. *)
Record vrepr := mkVR { vrCodec : str; vrW : Z; vrH : Z; vrBw : Z }.
(** MpdManager.cpp 510-529. *)
Record arepr := mkAR { arCodec : str; arRate : Z; arBw : Z; arCh : Z }.
(** MpdManager.cpp: VideoAdaptationSet 266-273, AudioAdaptationSet 378-385, AdaptationSet 226-235. *)
Record vadapt := mkVA { vaScale : Z; vaSeg : str; vaInit : str; vaTimes : list (Z * Z); vaMaxW : Z; vaMaxH : Z; vaRate : Z; vaReprs : list (str * vrepr) }.
(** MpdManager.cpp 378-385. *)
Record aadapt := mkAA { aaScale : Z; aaSeg : str; aaInit : str; aaTimes : list (Z * Z); aaReprs : list (str * arepr) }.
(** MpdManager.cpp: MpdManager, MpdManager.hh 157-166: [mStart] is availabilityStartTime, None before the first writing; the two sets
    are those named "0" and "1" (Dasher.hh 41-42). *)
Record mpd := mkMpd { mSeg : Z; mBuf : Z; mPeriod : str; mDepth : str; mStart : option str; mVid : option vadapt; mAud : option aadapt }.
(** MpdManager.cpp: MpdManager::MpdManager 29-36. *)
Definition newMpd : mpd := mkMpd 2 2 [] [] None None None.
(** MpdManager.cpp 61-62, 90. *)
Definition pt (z : Z) : str := lit "PT" ++ uintText z ++ lit ".0S".
(** MpdManager.cpp: configure 45-63. *)
Definition mConfigure (mb ms dur : Z) (m : mpd) : mpd :=
  let n := if 2 <=? ms then ms else 2 in
  let b := if u32 (n * dur) <=? mb then u32 (n * dur) else if u32 (2 * dur) <=? mb then mb else u32 (2 * dur) in
  mkMpd n b (pt dur) (pt (u32 (n * dur))) (mStart m) (mVid m) (mAud m).
(** MpdManager.cpp: updateVideoAdaptationSet 145-157, AdaptationSet::update 259-264. *)
Definition updateVideoSet (scale : Z) (seg init : str) (m : mpd) : mpd :=
  let x := match mVid m with Some x => x | None => mkVA scale seg init [] 0 0 0 [] end in
  mkMpd (mSeg m) (mBuf m) (mPeriod m) (mDepth m) (mStart m) (Some (mkVA scale seg init (vaTimes x) (vaMaxW x) (vaMaxH x) (vaRate x) (vaReprs x))) (mAud m).
(** MpdManager.cpp: updateVideoRepresentation 173-185 and 299-321. *)
Definition updateVideoRepr (id codec : str) (w h bw fps : Z) (m : mpd) : mpd :=
  match mVid m with
  | None => m
  | Some x => mkMpd (mSeg m) (mBuf m) (mPeriod m) (mDepth m) (mStart m)
      (Some (mkVA (vaScale x) (vaSeg x) (vaInit x) (vaTimes x) (if vaMaxW x <? w then w else vaMaxW x) (if vaMaxH x <? h then h else vaMaxH x) fps
                  (rset id (mkVR codec w h bw) (vaReprs x)))) (mAud m)
  end.
(** MpdManager.cpp: updateAudioAdaptationSet 159-171. *)
Definition updateAudioSet (scale : Z) (seg init : str) (m : mpd) : mpd :=
  let x := match mAud m with Some x => x | None => mkAA scale seg init [] [] end in
  mkMpd (mSeg m) (mBuf m) (mPeriod m) (mDepth m) (mStart m) (mVid m) (Some (mkAA scale seg init (aaTimes x) (aaReprs x))).
(** MpdManager.cpp: updateAudioRepresentation 187-199 and 410-423. *)
Definition updateAudioRepr (id codec : str) (rate bw ch : Z) (m : mpd) : mpd :=
  match mAud m with
  | None => m
  | Some x => mkMpd (mSeg m) (mBuf m) (mPeriod m) (mDepth m) (mStart m) (mVid m)
      (Some (mkAA (aaScale x) (aaSeg x) (aaInit x) (aaTimes x) (rset id (mkAR codec rate bw ch) (aaReprs x))))
  end.
(** MpdManager.cpp: updateAdaptationSetTimestamp 116-129, updateTimestamp 241-252. *)
Definition stamp (s : side) (ts dur : Z) (m : mpd) : mpd :=
  let push l := snd (popFront (mSeg m) l 0) ++ [(ts, dur)] in
  match s with
  | V => mkMpd (mSeg m) (mBuf m) (mPeriod m) (mDepth m) (mStart m)
           (option_map (fun x => mkVA (vaScale x) (vaSeg x) (vaInit x) (push (vaTimes x)) (vaMaxW x) (vaMaxH x) (vaRate x) (vaReprs x)) (mVid m)) (mAud m)
  | A => mkMpd (mSeg m) (mBuf m) (mPeriod m) (mDepth m) (mStart m) (mVid m)
           (option_map (fun x => mkAA (aaScale x) (aaSeg x) (aaInit x) (push (aaTimes x)) (aaReprs x)) (mAud m))
  end.
(** MpdManager.cpp: removeRepresentation 201-208, 282-291, 394-403. *)
Definition removeRepr (s : side) (id : str) (m : mpd) : mpd :=
  match s with
  | V => mkMpd (mSeg m) (mBuf m) (mPeriod m) (mDepth m) (mStart m)
           (option_map (fun x => mkVA (vaScale x) (vaSeg x) (vaInit x) (vaTimes x) (vaMaxW x) (vaMaxH x) (vaRate x) (rdel id (vaReprs x))) (mVid m)) (mAud m)
  | A => mkMpd (mSeg m) (mBuf m) (mPeriod m) (mDepth m) (mStart m) (mVid m)
           (option_map (fun x => mkAA (aaScale x) (aaSeg x) (aaInit x) (aaTimes x) (rdel id (aaReprs x))) (mAud m))
  end.

(** *** The document. *)
(** MpdManager.cpp: VideoAdaptationSet::toMpd 356-361, AudioAdaptationSet::toMpd 463-468. *)
Definition sElement (x : Z * Z) : xml := El (lit "S") (sets [("t", uintText (fst x)); ("d", uintText (snd x))]) [].
(** MpdManager.cpp: 349-363, 456-470. *)
Definition template (scale : Z) (seg init : str) (times : list (Z * Z)) : xml :=
  El (lit "SegmentTemplate") (sets [("timescale", intText scale); ("media", seg); ("initialization", init)]) [El (lit "SegmentTimeline") [] (map sElement times)].
(** MpdManager.cpp: 366-375. *)
Definition videoRepr (x : str * vrepr) : xml :=
  let r := snd x in
  El (lit "Representation") (sets [("id", fst x); ("codecs", vrCodec r); ("width", intText (vrW r)); ("height", intText (vrH r)); ("sar", lit "1:1"); ("bandwidth", intText (vrBw r))]) [].
(** MpdManager.cpp: 473-486. *)
Definition audioRepr (x : str * arepr) : xml :=
  let r := snd x in
  El (lit "Representation") (sets [("id", fst x); ("codecs", arCodec r); ("audioSamplingRate", intText (arRate r)); ("bandwidth", intText (arBw r))])
     [El (lit "AudioChannelConfiguration") (sets [("schemeIdUri", lit "urn:mpeg:dash:23003:3:audio_channel_configuration:2011"); ("value", intText (arCh r))]) []].
(** MpdManager.cpp 473-486; MpdManager.hh 38-41. *)
Definition alignment : list (string * str) :=
  [("segmentAlignment", lit "true"); ("startWithSAP", lit "1"); ("subsegmentAlignment", lit "true"); ("subsegmentStartsWithSAP", lit "1")].
(** MpdManager.cpp: 105-110 and VideoAdaptationSet::toMpd 333-376. *)
Definition videoSet (x : vadapt) : xml :=
  El (lit "AdaptationSet") (sets ([("id", lit "0"); ("mimeType", lit "video/mp4"); ("maxWidth", intText (vaMaxW x)); ("maxHeight", intText (vaMaxH x)); ("frameRate", intText (vaRate x))] ++ alignment))
     (template (vaScale x) (vaSeg x) (vaInit x) (vaTimes x) :: map videoRepr (vaReprs x)).
(** MpdManager.cpp: AudioAdaptationSet::toMpd 435-487. *)
Definition audioSet (x : aadapt) : xml :=
  El (lit "AdaptationSet") (sets ([("id", lit "1"); ("mimeType", lit "audio/mp4"); ("lang", lit "eng")] ++ alignment))
     (El (lit "Role") (sets [("schemeIdUri", lit "urn:mpeg:dash:role:2011"); ("value", lit "main")]) []
      :: template (aaScale x) (aaSeg x) (aaInit x) (aaTimes x) :: map audioRepr (aaReprs x)).
(** Model's own: an element that is there or not. *)
Definition optList {A B} (f : A -> B) (o : option A) : list B := match o with Some a => [f a] | None => [] end.
(** MpdManager.cpp: writeToDisk 81-112, with the constants of MpdManager.hh 30-48. *)
Definition mpdTree (start : str) (m : mpd) : xml :=
  El (lit "MPD") (sets [("xmlns:xsi", lit "http://www.w3.org/2001/XMLSchema-instance"); ("xmlns", lit "urn:mpeg:dash:schema:mpd:2011"); ("xmlns:xlink", lit "http://www.w3.org/1999/xlink");
      ("xsi:schemaLocation", lit "urn:mpeg:DASH:schema:MPD:2011 http://standards.iso.org/ittf/PubliclyAvailableStandards/MPEG-DASH_schema_files/DASH-MPD.xsd");
      ("profiles", lit "urn:mpeg:dash:profile:isoff-live:2011"); ("type", lit "dynamic"); ("minimumUpdatePeriod", mPeriod m); ("timeShiftBufferDepth", mDepth m);
      ("minBufferTime", pt (mBuf m)); ("availabilityStartTime", start)])
    [El (lit "ProgramInformation") [] [Leaf (lit "Title") [] (lit "Demo DASH")];
     El (lit "Period") (sets [("id", lit "0"); ("start", lit "PT0.0S")]) (optList videoSet (mVid m) ++ optList audioSet (mAud m))].
(** MpdManager.cpp: writeToDisk 65-114; [now]: the date of this moment. *)
Definition writeToDisk (now : str) (m : mpd) : str * mpd :=
  let start := match mStart m with Some s => s | None => now end in
  (document (mpdTree start m), mkMpd (mSeg m) (mBuf m) (mPeriod m) (mDepth m) (Some start) (mVid m) (mAud m)).

(** *** What the dasher does with it (Dasher.cpp 81, 221-223, 233-235, 287-289, 340-342, 374-376, 560, 566, 582). The frame rate of a
    video stream is DashVideoSegmenter::getFramerate, DashVideoSegmenter.hh 68: 0. *)
Inductive op :=
| Configure (mb ms dur : Z)
| Video (scale : Z) (base : str) (id : Z) (codec : str) (w h bw : Z)
| Audio (scale : Z) (base : str) (id : Z) (codec : str) (rate bw ch : Z)
| Stamp (s : side) (ts dur : Z)
| Remove (s : side) (id : Z)
| Write (now : str).
(** Model's own: a history of what Dasher.cpp calls. *)
Definition step (o : op) (m : mpd) : mpd :=
  match o with
  | Configure mb ms dur => mConfigure mb ms dur m
  | Video scale base id codec w h bw => updateVideoRepr (uintText (u32 id)) codec w h bw 0 (updateVideoSet scale (segTempl V base) (initTempl V base) m)
  | Audio scale base id codec rate bw ch => updateAudioRepr (uintText (u32 id)) codec rate bw ch (updateAudioSet scale (segTempl A base) (initTempl A base) m)
  | Stamp s ts dur => stamp s ts dur m
  | Remove s id => removeRepr s (intText id) m
  | Write now => snd (writeToDisk now m)
  end.
(** Model's own: a history of what Dasher.cpp calls. *)
Definition run (l : list op) (m : mpd) : mpd := fold_left (fun m o => step o m) l m.
