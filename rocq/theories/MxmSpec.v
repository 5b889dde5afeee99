(** What a player reads in a manifest, independently of the code: a reader of XML, a reader of MPD attributes, and what a
    history of calls should have put there. *)
From Coq Require Import Ascii String.
From Verif Require Import Base Bytes JsonModel CtlModel MpdModel MpdSpec MxmModel.
Local Open Scope string_scope.
Local Open Scope list_scope.
Local Open Scope Z_scope.

(** *** XML 1.0. Text between elements that is only white space is dropped, as the MPD schema has no mixed content. *)
Inductive tree := Element (n : str) (a : list (str * str)) (content : list tree) | Chars (s : str).
Inductive token := Open (n : str) (a : list (str * str)) | Shut (n : str) | Text (s : str).
Definition code (c : ascii) : Z := Z.of_N (N_of_ascii c).
Definition white (c : ascii) : bool := (code c =? 32) || (code c =? 9) || (code c =? 10) || (code c =? 13).
Definition nameChar (c : ascii) : bool :=
  ((65 <=? code c) && (code c <=? 90)) || ((97 <=? code c) && (code c <=? 122)) || ((48 <=? code c) && (code c <=? 58)) || (code c =? 95) || (code c =? 45) || (code c =? 46).
(** The five references every reader knows. *)
Definition ref (e : str) : option ascii :=
  if streqb e (lit "amp") then Some "&"%char else if streqb e (lit "lt") then Some "<"%char else if streqb e (lit "gt") then Some ">"%char
  else if streqb e (lit "quot") then Some """"%char else if streqb e (lit "apos") then Some "'"%char else None.
(** Where the reader is: in text, in a reference in text, after <, in the name of a start or an end tag, between the
    attributes of a tag, in the name of an attribute, after =, in a value, in a reference in a value, after the / of <.../>. *)
Inductive lst :=
| Txt (s : str) | TxtRef (s e : str) | Lt | Name (n : str) | Close (n : str) | Tag (n : str) (a : list (str * str)) | Key (n : str) (a : list (str * str)) (k : str)
| Eql (n : str) (a : list (str * str)) (k : str) | Val (n : str) (a : list (str * str)) (k v : str) | ValRef (n : str) (a : list (str * str)) (k v e : str) | Slash (n : str) (a : list (str * str)).
Definition next (s : lst) (c : ascii) : option (lst * list token) :=
  match s with
  | Txt t => if is c "<" then Some (Lt, if forallb white t then [] else [Text t]) else if is c "&" then Some (TxtRef t [], []) else Some (Txt (t ++ [c]), [])
  | TxtRef t e => if is c ";" then match ref e with Some d => Some (Txt (t ++ [d]), []) | None => None end else Some (TxtRef t (e ++ [c]), [])
  | Lt => if is c "/" then Some (Close [], []) else if nameChar c then Some (Name [c], []) else None
  | Name n => if nameChar c then Some (Name (n ++ [c]), []) else if white c then Some (Tag n [], []) else if is c ">" then Some (Txt [], [Open n []])
              else if is c "/" then Some (Slash n [], []) else None
  | Close n => if nameChar c then Some (Close (n ++ [c]), []) else if is c ">" then Some (Txt [], [Shut n]) else None
  | Tag n a => if nameChar c then Some (Key n a [c], []) else if white c then Some (Tag n a, []) else if is c ">" then Some (Txt [], [Open n a])
               else if is c "/" then Some (Slash n a, []) else None
  | Key n a k => if nameChar c then Some (Key n a (k ++ [c]), [])
                 else if is c "=" then if existsb (fun x => streqb k (fst x)) a then None else Some (Eql n a k, []) else None
  | Eql n a k => if is c """" then Some (Val n a k [], []) else None
  | Val n a k v => if is c """" then Some (Tag n (a ++ [(k, v)]), []) else if is c "&" then Some (ValRef n a k v [], []) else if is c "<" then None
                   else Some (Val n a k (v ++ [if white c then " "%char else c]), [])
  | ValRef n a k v e => if is c ";" then match ref e with Some d => Some (Val n a k (v ++ [d]), []) | None => None end else Some (ValRef n a k v (e ++ [c]), [])
  | Slash n a => if is c ">" then Some (Txt [], [Open n a; Shut n]) else None
  end.
Fixpoint lex (s : lst) (l : str) : option (list token) :=
  match l with
  | [] => match s with Txt t => if forallb white t then Some [] else None | _ => None end
  | c :: r => match next s c with Some (s', ts) => option_map (app ts) (lex s' r) | None => None end
  end.
(** The open elements, innermost first. *)
Fixpoint build (ts : list token) (stack : list (str * list (str * str) * list tree)) : option tree :=
  match ts, stack with
  | Open n a :: r, _ => build r ((n, a, []) :: stack)
  | Text s :: r, (n, a, c) :: st => build r ((n, a, c ++ [Chars s]) :: st)
  | Shut n :: r, (n', a, c) :: st =>
      if streqb n n' then
        match st, r with
        | [], [] => Some (Element n' a c)
        | (m, b, d) :: st', _ => build r ((m, b, d ++ [Element n' a c]) :: st')
        | _, _ => None
        end
      else None
  | _, _ => None
  end.
Definition readXml (s : str) : option tree := match lex (Txt []) s with Some ts => build ts [] | None => None end.

(** *** MPD attributes. *)
Definition bindO {A B} (o : option A) (f : A -> option B) : option B := match o with Some a => f a | None => None end.
Local Notation "x <- a ;; b" := (bindO a (fun x => b)) (at level 61, right associativity).
Fixpoint lookup (k : str) (a : list (str * str)) : option str :=
  match a with [] => None | (k', v) :: t => if streqb k k' then Some v else lookup k t end.
Definition attr (k : string) (t : tree) : option str := match t with Element _ a _ => lookup (lit k) a | Chars _ => None end.
Definition named (n : string) (t : tree) : bool := match t with Element m _ _ => streqb (lit n) m | Chars _ => false end.
Definition kids (n : string) (t : tree) : list tree := match t with Element _ _ c => filter (named n) c | Chars _ => [] end.
Definition only {A} (l : list A) : option A := match l with [x] => Some x | _ => None end.
Definition kid (n : string) (t : tree) : option tree := only (kids n t).
Fixpoint all {A B} (f : A -> option B) (l : list A) : option (list B) :=
  match l with [] => Some [] | x :: r => y <- f x ;; ys <- all f r ;; Some (y :: ys) end.
(** Decimal numbers, and durations of whole seconds: PTn.0S. *)
Fixpoint value (acc : Z) (s : str) : option Z :=
  match s with
  | [] => Some acc
  | c :: r => if (48 <=? code c) && (code c <=? 57) then value (10 * acc + (code c - 48)) r else None
  end.
Definition number (s : str) : option Z := match s with [] => None | _ => value 0 s end.
Definition duration (s : str) : option Z :=
  if streqb (firstn 2 s) (lit "PT") && streqb (skipn (length s - 3) s) (lit ".0S") then number (firstn (length s - 5) (skipn 2 s)) else None.
Definition num (k : string) (t : tree) : option Z := s <- attr k t ;; number s.
Definition sec (k : string) (t : tree) : option Z := s <- attr k t ;; duration s.

(** *** A manifest as a player sees it. *)
Record vstream := mkVS { vCodec : str; vWidth : Z; vHeight : Z; vBandwidth : Z }.
Record astream := mkAS { aCodec : str; aRate : Z; aBandwidth : Z; aChannels : Z }.
Record segments := mkSegs { timescale : Z; media : str; initialization : str; times : list (Z * Z) }.
Record videos := mkVs { vSegs : segments; maxWidth : Z; maxHeight : Z; frameRate : Z; vStreams : list (Z * vstream) }.
Record audios := mkAs { aSegs : segments; aStreams : list (Z * astream) }.
Record manifest := mkM { updatePeriod : Z; shiftDepth : Z; bufferTime : Z; startTime : str; video : option videos; audio : option audios }.

Definition readS (t : tree) : option (Z * Z) := a <- num "t" t ;; d <- num "d" t ;; Some (a, d).
(** An attribute that must have a value. *)
Definition must (k v : string) (t : tree) : option tree := match attr k t with Some x => if streqb x (lit v) then Some t else None | None => None end.
(** In the live profile the segments of the streams of a set begin together, with a frame that needs no other. *)
Definition readSegments (set : tree) : option segments :=
  aligned <- must "segmentAlignment" "true" set ;; sap <- must "startWithSAP" "1" set ;;
  t <- kid "SegmentTemplate" set ;; n <- num "timescale" t ;; m <- attr "media" t ;; i <- attr "initialization" t ;;
  l <- kid "SegmentTimeline" t ;; ts <- all readS (kids "S" l) ;; Some (mkSegs n m i ts).
Definition readVideoStream (t : tree) : option (Z * vstream) :=
  i <- num "id" t ;; c <- attr "codecs" t ;; w <- num "width" t ;; h <- num "height" t ;; b <- num "bandwidth" t ;; Some (i, mkVS c w h b).
Definition readAudioStream (t : tree) : option (Z * astream) :=
  i <- num "id" t ;; c <- attr "codecs" t ;; r <- num "audioSamplingRate" t ;; b <- num "bandwidth" t ;;
  ch <- kid "AudioChannelConfiguration" t ;; n <- num "value" ch ;; Some (i, mkAS c r b n).
Definition readVideos (t : tree) : option videos :=
  s <- readSegments t ;; w <- num "maxWidth" t ;; h <- num "maxHeight" t ;; f <- num "frameRate" t ;;
  l <- all readVideoStream (kids "Representation" t) ;; Some (mkVs s w h f l).
Definition readAudios (t : tree) : option audios :=
  s <- readSegments t ;; l <- all readAudioStream (kids "Representation" t) ;; Some (mkAs s l).
(** At most one set of a media type. *)
Definition setOfType (mime : string) (sets : list tree) : list tree :=
  filter (fun t => match attr "mimeType" t with Some m => streqb (lit mime) m | None => false end) sets.
Definition atMost {A} (f : tree -> option A) (l : list tree) : option (option A) :=
  match l with [] => Some None | [t] => x <- f t ;; Some (Some x) | _ => None end.
Definition readManifest (s : str) : option manifest :=
  t <- readXml s ;;
  root <- (if named "MPD" t then Some t else None) ;; ns <- must "xmlns" "urn:mpeg:dash:schema:mpd:2011" t ;;
  live <- must "profiles" "urn:mpeg:dash:profile:isoff-live:2011" t ;; dynamic <- must "type" "dynamic" t ;;
  u <- sec "minimumUpdatePeriod" t ;; d <- sec "timeShiftBufferDepth" t ;; b <- sec "minBufferTime" t ;; a <- attr "availabilityStartTime" t ;;
  p <- kid "Period" t ;; zero <- sec "start" p ;; now <- (if zero =? 0 then Some p else None) ;;
  v <- atMost readVideos (setOfType "video/mp4" (kids "AdaptationSet" p)) ;;
  x <- atMost readAudios (setOfType "audio/mp4" (kids "AdaptationSet" p)) ;;
  Some (mkM u d b a v x).

(** *** What a history should have put there. *)
(** The last configuration: minimum buffer time, number of segments, seconds per segment. *)
Fixpoint configured (l : list op) (c : Z * Z * Z) : Z * Z * Z :=
  match l with [] => c | Configure mb ms du :: r => configured r (mb, ms, du) | _ :: r => configured r c end.
(** The date of the first writing. *)
Fixpoint firstWritten (l : list op) (now : str) : str :=
  match l with [] => now | Write d :: _ => d | _ :: r => firstWritten r now end.
(** The stream of a number: what was last told about it, unless it was removed since. *)
Definition videoNow (l : list op) (i : Z) : option vstream :=
  fold_left (fun f o => match o with
    | Video _ _ j c w h b => if i =? j then Some (mkVS c w h b) else f
    | Remove V j => if i =? j then None else f
    | _ => f end) l None.
Definition audioNow (l : list op) (i : Z) : option astream :=
  fold_left (fun f o => match o with
    | Audio _ _ j c r b n => if i =? j then Some (mkAS c r b n) else f
    | Remove A j => if i =? j then None else f
    | _ => f end) l None.
(** Time scale and base name of the last stream told about on a side. *)
Definition lastTold (s : side) (l : list op) : option (Z * str) :=
  fold_left (fun f o => match s, o with V, Video k b _ _ _ _ _ => Some (k, b) | A, Audio k b _ _ _ _ _ => Some (k, b) | _, _ => f end) l None.
(** The greatest width and height told about so far. *)
Definition widest (l : list op) : Z := fold_left (fun f o => match o with Video _ _ _ _ w _ _ => Z.max f w | _ => f end) l 0.
Definition highest (l : list op) : Z := fold_left (fun f o => match o with Video _ _ _ _ _ h _ => Z.max f h | _ => f end) l 0.
(** The times stamped on a side that has a stream: the newest ones, as many as configured when the last one came. *)
Fixpoint stamped (s : side) (l : list op) (n : nat) (on : bool) (w : list (Z * Z)) : list (Z * Z) :=
  match l with
  | [] => w
  | Configure _ ms _ :: r => stamped s r (Z.to_nat (Z.max 2 ms)) on w
  | Video _ _ _ _ _ _ _ :: r => stamped s r n (match s with V => true | A => on end) w
  | Audio _ _ _ _ _ _ _ :: r => stamped s r n (match s with A => true | V => on end) w
  | Stamp s' t d :: r => stamped s r n on (match s, s' with V, V | A, A => if on then lastn n (w ++ [(t, d)]) else w | _, _ => w end)
  | _ :: r => stamped s r n on w
  end.

(** Arguments in their ranges; texts without control characters. *)
Definition clean (s : str) : Prop := Forall (fun c => 32 <= code c) s.
Definition small (z : Z) : Prop := 0 <= z < 2147483648.
Definition proper (o : op) : Prop :=
  match o with
  | Configure mb ms du => 0 <= mb < 4294967296 /\ 0 <= ms /\ 0 < du /\ Z.max 2 ms * du < 4294967296
  | Video k b i c w h bw => small k /\ clean b /\ small i /\ clean c /\ small w /\ small h /\ small bw
  | Audio k b i c r bw n => small k /\ clean b /\ small i /\ clean c /\ small r /\ small bw /\ small n
  | Stamp _ t d => 0 <= t < 18446744073709551616 /\ 0 <= d < 4294967296
  | Remove _ i => small i
  | Write d => clean d
  end.
(** The streams listed are those of the history, each once. *)
Definition lists {A} (l : list (Z * A)) (f : Z -> option A) : Prop := NoDup (map fst l) /\ forall i x, In (i, x) l <-> f i = Some x.
