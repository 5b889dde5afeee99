(** Model of the transmitter's sources and packetisers (src/modules/transmitter): QueueSource,
    H264or5QueueSource, H264or5StartCodeInjector, H264VideoStreamSampler, CustomMPEG4GenericRTPSink and the
    UltraGrid sinks. live555's own classes are not modelled: getNextFrame calls doGetNextFrame with the space
    given, afterGetting hands the data to the caller. *)
From Coq Require Import String.
From Verif Require Import Base Bytes.
Local Open Scope list_scope.
Local Open Scope Z_scope.

(** Model's own: unsigned int arithmetic. *)
Definition w32 (z : Z) : Z := z mod 4294967296.

(** *** H264or5QueueSource.cpp *)
(** startOffset 42-52: the length of the start code at the head of the memory [l]. *)
Definition startOffset (l : bytes) : Z :=
  match l with
  | a :: b :: c :: r =>
      if (a =? 0) && (b =? 0) && (c =? 1) then 3
      else match r with d :: _ => if (a =? 0) && (b =? 0) && (c =? 0) && (d =? 1) then 4 else 0 | [] => 0 end
  | _ => 0
  end.
(** How far it reads. *)
Definition startReads (l : bytes) : Z := if startOffset l =? 3 then 3 else 4.

(** Model's own: which of the two codecs of H264or5QueueSource. *)
Inductive vcodec := H264 | H265.
(** The parameter sets: data, and the size that is announced. *)
Record headers := mkH { hvps : option (bytes * Z); hsps : option (bytes * Z); hpps : option (bytes * Z) }.
(** Model's own: nothing found yet. *)
Definition noHeaders : headers := mkH None None None.
(** feedHeaders 121-152: nalSize is a uint8_t. *)
Definition feedHeaders (c : vcodec) (n : bytes) (h : headers) : headers :=
  let e := Some (n, len n mod 256) in
  let b := nth 0 n 0 in
  match c with
  | H264 => let t := Z.land b 31 in
            if t =? 7 then mkH (hvps h) e (hpps h) else if t =? 8 then mkH (hvps h) (hsps h) e else h
  | H265 => let t := Z.shiftr (Z.land b 126) 1 in
            if t =? 33 then mkH (hvps h) e (hpps h) else if t =? 34 then mkH (hvps h) (hsps h) e
            else if t =? 32 then mkH e (hsps h) (hpps h) else h
  end.
(** An empty unit makes feedHeaders read outside its allocation; a negative size makes new throw. *)
Inductive parsed := Parsed (h : headers) | EmptyUnit | NegativeSize.
(** The loop of parseExtradata, 95-108: [rem] bytes of extradata left, [l] the memory from here on, [nal] the
    bytes since the last start code, [over] whether bytes after the extradata have been read. *)
Fixpoint scan (fuel : nat) (c : vcodec) (rem : Z) (l nal : bytes) (h : headers) (over : bool) : parsed * bool :=
  match fuel with
  | O => (NegativeSize, over)
  | S fuel' =>
      if rem <? 0 then (NegativeSize, over)
      else if rem =? 0 then match nal with [] => (EmptyUnit, over) | _ => (Parsed (feedHeaders c nal h), over) end
      else
        let k := startOffset l in
        let over' := over || (rem <? startReads l) in
        if 0 <? k then
          match nal with [] => (EmptyUnit, over')
          | _ => scan fuel' c (rem - k) (skipn (Z.to_nat k) l) [] (feedHeaders c nal h) over' end
        else match l with [] => (NegativeSize, over') | b :: r => scan fuel' c (rem - 1) r (nal ++ [b]) h over' end
  end.
(** parseExtradata 82-119: [ex] the extradata, [after] the memory that follows it. *)
Definition parseExtradata (c : vcodec) (ex after : bytes) : parsed * bool :=
  let l := ex ++ after in
  let k := startOffset l in
  let over := len ex <? startReads l in
  if 0 <? k then scan (S (length ex)) c (len ex - k) (skipn (Z.to_nat k) l) [] noHeaders over else (Parsed noHeaders, over).

(** deliverFrame 154-191: [mem] the buffer of the frame, [size] its length, [max] the space: the bytes
    delivered and the number reported as truncated. *)
Definition deliver264 (mem : bytes) (size max : Z) : bytes * Z :=
  let off := startOffset mem in
  let size := w32 (size - off) in
  let data := skipn (Z.to_nat off) mem in
  if max <? size then (firstn (Z.to_nat max) data, size - max) else (firstn (Z.to_nat size) data, 0).
(** QueueSource::deliverFrame, QueueSource.cpp 39-64. *)
Definition deliverRaw (mem : bytes) (size max : Z) : bytes * Z :=
  if max <? size then (firstn (Z.to_nat max) mem, size - max) else (firstn (Z.to_nat size) mem, 0).

(** *** QueueSource.cpp: one frame at a time between the sink manager and live555. *)
Inductive kind := Plain | Nal.                    (* QueueSource, H264or5QueueSource *)
Record qsource := mkQ { qframe : option Z; processed : bool; stopped : bool; awaiting : bool }.
(** QueueSource.cpp 10-17. *)
Definition newQ : qsource := mkQ None false true false.
(** Model's own: a history of a source, and what is seen of it. *)
Inductive qop := QSet (id : Z) | QGot | QAsk | QTrigger | QStop.
(** Model's own: a history of a source, and what is seen of it. *)
Inductive qev := Taken (id : Z) | Delivered (id : Z) | Collected (id : Z).
(** deliverFrame: QueueSource 39-64 checks processedFrame, H264or5QueueSource 154-191 does not. *)
Definition qdeliver (k : kind) (q : qsource) : list qev * qsource :=
  if negb (awaiting q) then ([], q)
  else match qframe q with
       | None => ([], q)
       | Some id => if match k with Plain => processed q | Nal => false end then ([], q)
                    else ([Delivered id], mkQ (Some id) true (stopped q) false)
       end.
(** setFrame 78-85, gotFrame 66-76, doGetNextFrame 18-33, the trigger 35-37, doStopGettingFrames 97-101. *)
Definition qstep (k : kind) (o : qop) (q : qsource) : list qev * qsource :=
  match o with
  | QSet id => match qframe q with None => ([Taken id], mkQ (Some id) (processed q) (stopped q) (awaiting q)) | Some _ => ([], q) end
  | QGot => if processed q || stopped q
            then match qframe q with Some id => ([Collected id], mkQ None false (stopped q) (awaiting q)) | None => ([], mkQ None false (stopped q) (awaiting q)) end
            else ([], q)
  | QAsk => let q := mkQ (qframe q) (processed q) false true in
            match qframe q with Some _ => qdeliver k q | None => ([], q) end
  | QTrigger => qdeliver k q
  | QStop => ([], mkQ (qframe q) (processed q) true false)
  end.
(** Model's own: a history of a source, and what is seen of it. *)
Fixpoint qrun (k : kind) (os : list qop) (q : qsource) : list qev * qsource :=
  match os with [] => ([], q) | o :: r => let '(e, q) := qstep k o q in let '(es, q) := qrun k r q in (e ++ es, q) end.

(** *** H264or5StartCodeInjector.cpp 54-57, 69-103: [inner] is what the input source delivers when given the
    space max - 4. *)
Definition inject (inner : Z -> bytes * Z) (max : Z) : bytes * Z :=
  let '(d, t) := inner (w32 (max - 4)) in ([0; 0; 0; 1] ++ d, t).

(** *** H264VideoStreamSampler.cpp 42-45, 56-113: collects the units of a picture until a delimiter. [acc] is
    what has been written (offset is its length), [u] the unit its source delivers, into the space
    max - offset - 4. What is kept of the parameter sets (saveCopyOfSPS, updateSPSInfo) is not in this
    definition. *)
Inductive sampled := More (acc : bytes) | Picture (p : bytes) (truncated : Z) | Overflow.
(** H264VideoStreamSampler.cpp 42-45, 56-113. *)
Definition sampleUnit (annexb : bool) (max : Z) (acc u : bytes) : sampled :=
  let '(d, t) := deliverRaw u (len u) (w32 (max - len acc - 4)) in
  if max <? len acc + 4 + len d then Overflow
  else
    let code := if annexb then [0; 0; 0; 1] else be 4 (len d) in
    let aud := match d with b :: _ => Z.land b 31 =? 9 | [] => false end in
    if aud || (0 <? t) then Picture acc t else More (acc ++ code ++ d).
(** The pictures given out for a sequence of units, each into a space [max]; and the unfinished one. None: a
    write beyond the space. *)
Fixpoint sampleStream (annexb : bool) (max : Z) (acc : bytes) (us : list bytes) : option (list (bytes * Z) * bytes) :=
  match us with
  | [] => Some ([], acc)
  | u :: r => match sampleUnit annexb max acc u with
              | Overflow => None
              | More acc' => sampleStream annexb max acc' r
              | Picture p t => match sampleStream annexb max [] r with Some (ps, a) => Some ((p, t) :: ps, a) | None => None end
              end
  end.

(** *** CustomMPEG4GenericRTPSink.cpp 87-109. *)
Definition auHeader (fragOffset n rest : Z) : bytes :=
  let size := w32 (fragOffset + n + rest) in
  [0; 16; Z.shiftr size 5 mod 256; Z.shiftl (Z.land size 31) 3 mod 256].

(** *** UltraGridAudioRTPSink.cpp 85-120: 5 words in network order. *)
Definition ugAudioHeader (chan buf offset n bps rate tag : Z) : bytes :=
  be 4 (Z.lor (w32 (Z.shiftl chan 22)) buf) ++ be 4 offset ++ be 4 n ++ be 4 (Z.lor (w32 (Z.shiftl bps 26)) rate) ++ be 4 tag.
(** fBufferIDx after a frame, 109. *)
Definition ugNextBuffer (b : Z) : Z := Z.land (b + 1) 4194303.
(** The byte swap of 16-bit PCM, 112-120: an odd length makes it swap a byte with the one after the data. *)
Fixpoint swap16 (l : bytes) : bytes := match l with a :: b :: r => b :: a :: swap16 r | _ => l end.

(** *** UltraGridVideoRTPSink.cpp, UltraGridVideoFragmenter. *)
Definition HDR : Z := 24.
(** Word 6, 236-252: [fps] is the rounded rate, [fd] the 1/1.001 flag, [il] the interlacing. *)
Definition ugWord6 (il fps fd : Z) : Z := w32 (Z.lor (Z.lor (Z.lor (Z.shiftl il 29) (Z.shiftl fps 19)) (Z.shiftl 1 15)) (Z.shiftl fd 14)).
(** Model's own: the values the header and its payload are made of. *)
Record ugConfig := mkU { uw : Z; uh : Z; ufps : Z; ufd : Z; uil : Z; utile : Z }.
(** Model's own: the values the header and its payload are made of. *)
Record frag := mkFr { fdata : bytes; fcur : Z; fbuf : Z; fhdr : list Z }.
Definition loadHeader (ws : list Z) : bytes := flat_map (be 4) ws.                      (* loadPayloadHeader 321-328 *)
Record packet := mkP { pbytes : bytes; plast : bool; pwritten : Z }.
(** Model's own: the second word of a header is written. *)
Definition setNth2 (x : Z) (l : list Z) : list Z := match l with a :: _ :: r => a :: x :: r | _ => l end.
(** doGetNextFrame 208-319 when a frame is in the buffer; [avail] is fMaxSize, [maxOut] fMaxOutputPacketSize.
    [pwritten] is how far the packet buffer is written. Packets of less than 24 bytes, for which the offset
    wraps, are outside the model; fBufferIDx is taken modulo 2^32. *)
Definition fragStep (u : ugConfig) (maxOut avail : Z) (s : frag) : packet * frag :=
  let mx := if avail <? maxOut then avail else maxOut in
  let n := len (fdata s) in
  let finish (cur : Z) (h : list Z) := if cur =? n then mkFr [] 0 (w32 (fbuf s + 1)) h else mkFr (fdata s) cur (fbuf s) h in
  if fcur s =? 0 then
    let all := n + HDR <=? mx in
    let send := if all then n + HDR else mx in
    let h := [w32 (Z.lor (Z.shiftl (utile u) 22) (Z.land 4194303 (fbuf s))); 0; n; w32 (Z.lor (Z.shiftl (uw u) 16) (uh u)); rd (tag "AVC1"%string); ugWord6 (uil u) (ufps u) (ufd u)] in
    (mkP (firstn (Z.to_nat send) (loadHeader h ++ fdata s)) all (HDR + n + HDR), finish (send - HDR) h)
  else
    let want := HDR + (n - fcur s) in
    let send := if mx <? want then mx else want in
    let h := setNth2 (fcur s) (fhdr s) in
    (mkP (loadHeader h ++ firstn (Z.to_nat (send - HDR)) (skipn (Z.to_nat (fcur s)) (fdata s))) (negb (mx <? want)) send, finish (fcur s + (send - HDR)) h).
(** The packets of one frame for the given spaces, until it is sent. *)
Fixpoint fragAll (u : ugConfig) (maxOut : Z) (avails : list Z) (s : frag) : list packet * frag :=
  match avails with
  | [] => ([], s)
  | a :: r => match fdata s with
              | [] => ([], s)
              | _ => let '(p, s') := fragStep u maxOut a s in let '(ps, s'') := fragAll u maxOut r s' in (p :: ps, s'')
              end
  end.
