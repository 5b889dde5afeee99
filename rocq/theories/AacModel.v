(** Model of how the transmitter comes to the configuration it announces for an AAC stream:
    src/modules/transmitter/ADTSStreamParser.cpp 36-105, ADTSStreamParser.hh 43, 69,
    ADTSQueueServerMediaSubsession.cpp 35-104, ADTSQueueServerMediaSubsession.hh 65, 76-78 and CustomMPEG4GenericRTPSink.cpp 121-162.

    Simplified: which frames reach the parser while startPlaying runs (none, or what the queue holds) is left open;
    a source that closes while startPlaying runs is not modelled, because the program's sources never close by themselves.
    Memory is the bytes from the start of configString to the end of the object it is in. *)
From Coq Require Import Ascii String ZArith List Bool.
From Verif Require Import Base Bytes JsonModel SdpModel AnnModel NalModel.
Notation length := List.length.
Import ListNotations.
Local Open Scope list_scope.
Local Open Scope Z_scope.

(** ADTSStreamParser.hh 69: char configString[2]. *)
Definition CONFIG_ROOM : nat := 2.
(** Model's own: the end of a C string. *)
Definition NUL : ascii := Ascii.zero.
(** Model's own: the digits of %X and %x. *)
Definition digits (upper : bool) : str := if upper then lit "0123456789ABCDEF" else lit "0123456789abcdef".
(** Model's own: %02X and %02x of an unsigned char. *)
Definition hex2 (upper : bool) (b : Z) : str :=
  [nth (Z.to_nat (b / 16)) (digits upper) NUL; nth (Z.to_nat (b mod 16)) (digits upper) NUL].
(** The text printed by ADTSStreamParser.cpp 97-99 of the two bytes. *)
Definition printed (e : bytes) : str := hex2 true (nth 0 e 0) ++ hex2 false (nth 1 e 0).
(** What sprintf of [t] leaves in memory; nothing if it writes past the end of the object. *)
Definition store (t : str) (mem : list ascii) : option (list ascii) :=
  if (length (t ++ [NUL]) <=? length mem)%nat then Some ((t ++ [NUL]) ++ skipn (length (t ++ [NUL])) mem) else None.
(** ADTSStreamParser.cpp 59-73, 75-105: a frame comes; one that is refused changes nothing. *)
Definition deliver (f : bytes) (mem : list ascii) : option (list ascii) :=
  match updateConfigString f with Some e => store (printed e) mem | None => Some mem end.
(** ADTSStreamParser.cpp 59-73, for the frames that come. *)
Fixpoint deliverAll (fs : list bytes) (mem : list ascii) : option (list ascii) :=
  match fs with
  | [] => Some mem
  | f :: r => match deliver f mem with Some m => deliverAll r m | None => None end
  end.
(** What strlen and %s see of configString (CustomMPEG4GenericRTPSink.cpp 132, 149, 157; it is never NULL, ADTSStreamParser.hh 43);
    nothing if there is no end of the text in the object. *)
Fixpoint cstring (mem : list ascii) : option str :=
  match mem with
  | [] => None
  | c :: r => if Ascii.eqb c NUL then Some [] else match cstring r with Some t => Some (c :: t) | None => None end
  end.

(** fAuxSDPLine, fDummyRTPSink != NULL and fDoneFlag, ADTSQueueServerMediaSubsession.hh 76-78. *)
Record subsession := mkSub { aux : option str; dummy : bool; done : bool }.
(** ADTSQueueServerMediaSubsession.cpp 39. *)
Definition newSubsession : subsession := mkSub None false false.
(** The line CustomMPEG4GenericRTPSink.cpp 138-161 makes of the configuration. *)
Definition auxLine (pt : Z) (config : str) : str := lit "a=fmtp:" ++ aacFmtp pt config ++ [CR; LF].
(** checkForAuxSDPLine1, ADTSQueueServerMediaSubsession.cpp 67-84; nothing if it reads past the end of the object. *)
Definition check (pt : Z) (mem : list ascii) (s : subsession) : option subsession :=
  match aux s with
  | Some _ => Some (mkSub (aux s) (dummy s) true)
  | None =>
    if dummy s
    then match cstring mem with Some c => Some (mkSub (Some (auxLine pt c)) false true) | None => None end
    else Some s
  end.
(** Model's own: how a request for the line ends: with a line or without, it waits in doEventLoop, or the program uses
    memory that is not the object's. *)
Inductive answer := Line (l : option str) | Waits | Wild.
(** doEventLoop(&fDoneFlag), ADTSQueueServerMediaSubsession.cpp 96-97: it returns at once if the flag is set. *)
Definition eventLoop (s : subsession) : answer := if done s then Line (aux s) else Waits.
(** getAuxSDPLine, ADTSQueueServerMediaSubsession.cpp 86-98, with a source made for the request (100-104): [mem] is what its
    memory holds then, [fs] the frames that come while startPlaying runs. *)
Definition getAuxSDPLine (pt : Z) (mem : list ascii) (fs : list bytes) (s : subsession) : answer * subsession :=
  match aux s with
  | Some l => (Line (Some l), s)
  | None =>
    if dummy s then (eventLoop s, s)
    else match deliverAll fs mem with
         | None => (Wild, s)
         | Some m => match check pt m (mkSub None true (done s)) with
                     | None => (Wild, s)
                     | Some s' => (eventLoop s', s')
                     end
         end
  end.
(** Model's own: the answers to requests one after the other. *)
Fixpoint answers (pt : Z) (rs : list (list ascii * list bytes)) (s : subsession) : list answer :=
  match rs with
  | [] => []
  | (m, fs) :: r => let '(a, s') := getAuxSDPLine pt m fs s in a :: answers pt r s'
  end.
