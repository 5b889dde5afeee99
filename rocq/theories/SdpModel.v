(* Session descriptions written and rewritten by the receiver.

   Modelled:
     src/modules/receiver/SourceManager.cpp  lines 325-348 (the text of an
        addSession request with subsessions), 363-408
     src/modules/receiver/Handlers.cpp       lines 328-342 (modifySessionName)
     src/Utils.cpp                           lines 572-590 (getPayloadFromCodec)

   Simplifications: the fields of a request are taken as already converted
   from JSON (CtlModel.v has Get, ToInt and ToString).  int arguments become
   unsigned int parameters. *)
From Coq Require Import Ascii String ZArith List Bool.
From Verif Require Import JsonModel CtlModel.
Import ListNotations.
Local Open Scope list_scope.
Local Open Scope Z_scope.

(* The characters of SourceManager.cpp 325-348's line ends. *)
Definition LF : ascii := "010".
(* The characters of SourceManager.cpp 325-348's line ends. *)
Definition CR : ascii := "013".

(* operator<<(unsigned int) of an int argument *)
Definition unsignedText (z : Z) : str := decimal 20 (z mod 4294967296).

(* Utils.cpp 572-590 *)
Definition getPayloadFromCodec (codec : str) : Z :=
  if streq codec (lit "pcmu") || streq codec (lit "opus") || streq codec (lit "pcm")
     || streq codec (lit "MPEG4-GENERIC") then 97
  else if streq codec (lit "mp3") then 14
  else if streq codec (lit "H264") then 96
  else -1.

(* SourceManager.cpp 363-373 *)
Definition makeSessionSDP (name descr : str) : str :=
  lit "v=0" ++ [LF] ++
  lit "o=- 0 0 IN IP4 127.0.0.1" ++ [LF] ++
  lit "s=" ++ name ++ [LF] ++
  lit "i=" ++ descr ++ [LF] ++
  lit "t= 0 0" ++ [LF].

(* SourceManager.cpp 375-408; protocolName is not used *)
Definition makeSubsessionSDP (medium : str) (pt : Z) (codec : str)
           (bandwidth freq port channels : Z) : str :=
  lit "m=" ++ medium ++ lit " " ++ unsignedText port ++
  lit " RTP/AVP " ++ unsignedText pt ++ [LF] ++
  lit "c=IN IP4 127.0.0.1" ++ [LF] ++
  lit "b=AS:" ++ unsignedText bandwidth ++ [LF] ++
  (if (pt mod 4294967296) <? 96 then []
   else
     lit "a=rtpmap:" ++ unsignedText pt ++ lit " " ++ codec ++ lit "/" ++ unsignedText freq ++
     (if (channels mod 4294967296) =? 0 then [] else lit "/" ++ unsignedText channels) ++ [LF] ++
     (if streq codec (lit "H264")
      then lit "a=fmtp:" ++ unsignedText pt ++ lit " packetization-mode=1" ++ [LF] else []) ++
     (if streq codec (lit "MPEG4-GENERIC") && streq medium (lit "audio")
      then lit "a=fmtp:" ++ unsignedText pt ++
           lit " streamtype=5;profile-level-id=1;mode=AAC-hbr;sizelength=13;indexlength=3;indexdeltalength=3" ++ [LF]
      else [])).

(* One element of the "subsessions" array. *)
Record sub := mkSub { sMedium : str; sCodec : str; sBandwidth : Z; sFreq : Z; sPort : Z; sChannels : Z }.

(* SourceManager.cpp 330-346: the loop; None is "return false" *)
Fixpoint addSubs (sdp : str) (l : list sub) : option str :=
  match l with
  | [] => Some sdp
  | s :: r =>
    let payload := getPayloadFromCodec (sCodec s) in
    if payload <? 0 then None
    else addSubs (sdp ++ makeSubsessionSDP (sMedium s) payload (sCodec s)
                    (sBandwidth s) (sFreq s) (sPort s) (sChannels s)) r
  end.

(* SourceManager.cpp 325-348 *)
Definition requestSDP (id : str) (l : list sub) : option str :=
  addSubs (makeSessionSDP id (lit "this is a test")) l.

(* std::getline over a string stream: the pieces between newlines; a final
   newline does not start another piece. *)
Fixpoint getlines (cur s : str) : list str :=
  match s with
  | [] => match cur with [] => [] | _ => [cur] end
  | c :: t => if is c LF then cur :: getlines [] t else getlines (cur ++ [c]) t
  end.

(* 0 == line.find(prefix) *)
Fixpoint startsWith (p s : str) : bool :=
  match p, s with
  | [], _ => true
  | a :: p', b :: s' => is a b && startsWith p' s'
  | _, [] => false
  end.

(* Handlers.cpp 328-342 *)
Definition modifyLine (name line : str) : str :=
  if startsWith (lit "s=") line then lit "s=" ++ name ++ [LF] else line.
(* Handlers.cpp 328-342 *)
Definition modifySessionName (sdp name : str) : str :=
  flat_map (modifyLine name) (getlines [] sdp).
