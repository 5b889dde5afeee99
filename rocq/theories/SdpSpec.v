(* A reader of session descriptions (RFC 4566), independent of the writer:
   lines, fields and the attributes the receiver uses. *)
From Coq Require Import Ascii String ZArith List Bool.
Import ListNotations.
Local Open Scope list_scope.
Local Open Scope Z_scope.

Definition text := list ascii.
Definition txt (s : string) : text := list_ascii_of_string s.

(* Lines end with LF. *)
Fixpoint linesLF (cur s : text) : list text :=
  match s with
  | [] => match cur with [] => [] | _ => [cur] end
  | c :: t => if Ascii.eqb c "010" then cur :: linesLF [] t else linesLF (cur ++ [c]) t
  end.

(* Lines end with CR, LF or both; empty lines do not count. *)
Fixpoint linesAny (cur s : text) : list text :=
  match s with
  | [] => match cur with [] => [] | _ => [cur] end
  | c :: t =>
    if Ascii.eqb c "010" || Ascii.eqb c "013"
    then match cur with [] => linesAny [] t | _ => cur :: linesAny [] t end
    else linesAny (cur ++ [c]) t
  end.

(* Fields separated by [sep]. *)
Fixpoint fields (sep : ascii) (cur s : text) : list text :=
  match s with
  | [] => [cur]
  | c :: t => if Ascii.eqb c sep then cur :: fields sep [] t else fields sep (cur ++ [c]) t
  end.

(* The rest of [s] after [p]. *)
Fixpoint after (p s : text) : option text :=
  match p, s with
  | [], _ => Some s
  | a :: p', b :: s' => if Ascii.eqb a b then after p' s' else None
  | _, [] => None
  end.

(* A decimal number. *)
Fixpoint number (acc : Z) (s : text) : option Z :=
  match s with
  | [] => Some acc
  | c :: t =>
    let n := Z.of_N (N_of_ascii c) in
    if (48 <=? n) && (n <=? 57) then number (10 * acc + (n - 48)) t else None
  end.
Definition num (s : text) : option Z := match s with [] => None | _ => number 0 s end.

Record media := mkMedia {
  mMedium : text; mPort : Z; mProto : text; mPt : Z;
  mBandwidth : option Z;
  mMap : option (Z * text * Z * option Z);   (* type, codec, rate, channels *)
  mFmtp : option text
}.
Record descr := mkDescr { dName : option text; dMedia : list media }.

Definition lastMedia (f : media -> media) (d : descr) : option descr :=
  match rev (dMedia d) with
  | [] => None
  | m :: r => Some (mkDescr (dName d) (rev (f m :: r)))
  end.

Definition readMedia (rest : text) : option media :=
  match fields " " [] rest with
  | [m; p; proto; pt] =>
    match num p, num pt with
    | Some p', Some pt' => Some (mkMedia m p' proto pt' None None None)
    | _, _ => None
    end
  | _ => None
  end.

Definition readMap (rest : text) : option (Z * text * Z * option Z) :=
  match fields " " [] rest with
  | [pt; enc] =>
    match num pt, fields "/" [] enc with
    | Some pt', [c; r] => match num r with Some r' => Some (pt', c, r', None) | None => None end
    | Some pt', [c; r; ch] =>
      match num r, num ch with Some r', Some ch' => Some (pt', c, r', Some ch') | _, _ => None end
    | _, _ => None
    end
  | _ => None
  end.

(* One line of a description; lines of other kinds are skipped. *)
Definition readLine (d : descr) (l : text) : option descr :=
  match after (txt "s=") l with
  | Some n => Some (mkDescr (Some n) (dMedia d))
  | None =>
  match after (txt "m=") l with
  | Some r =>
    match readMedia r with
    | Some m => Some (mkDescr (dName d) (dMedia d ++ [m]))
    | None => None
    end
  | None =>
  match after (txt "b=AS:") l with
  | Some r =>
    match num r with
    | Some b => lastMedia (fun m => mkMedia (mMedium m) (mPort m) (mProto m) (mPt m) (Some b) (mMap m) (mFmtp m)) d
    | None => None
    end
  | None =>
  match after (txt "a=rtpmap:") l with
  | Some r =>
    match readMap r with
    | Some x => lastMedia (fun m => mkMedia (mMedium m) (mPort m) (mProto m) (mPt m) (mBandwidth m) (Some x) (mFmtp m)) d
    | None => None
    end
  | None =>
  match after (txt "a=fmtp:") l with
  | Some r => lastMedia (fun m => mkMedia (mMedium m) (mPort m) (mProto m) (mPt m) (mBandwidth m) (mMap m) (Some r)) d
  | None => Some d
  end end end end end.

Fixpoint readLines (d : descr) (l : list text) : option descr :=
  match l with
  | [] => Some d
  | x :: r => match readLine d x with Some d' => readLines d' r | None => None end
  end.

Definition readSdp (s : text) : option descr := readLines (mkDescr None []) (linesLF [] s).

(* The codecs a request may name, and the payload type each is announced
   with. *)
Definition codecs : list (text * Z) :=
  [(txt "pcmu", 97); (txt "opus", 97); (txt "pcm", 97); (txt "MPEG4-GENERIC", 97);
   (txt "mp3", 14); (txt "H264", 96)].

(* How a requested stream should be described.  Types below 96 have a fixed
   meaning and no mapping. *)
Definition wanted (medium codec : text) (pt bandwidth freq port channels : Z) : media :=
  mkMedia medium port (txt "RTP/AVP") pt (Some bandwidth)
    (if pt <? 96 then None
     else Some (pt, codec, freq, if channels =? 0 then None else Some channels))
    (if list_eq_dec ascii_dec codec (txt "H264")
     then Some (txt "96 packetization-mode=1")
     else if list_eq_dec ascii_dec codec (txt "MPEG4-GENERIC") then
       if list_eq_dec ascii_dec medium (txt "audio")
       then Some (txt "97 streamtype=5;profile-level-id=1;mode=AAC-hbr;sizelength=13;indexlength=3;indexdeltalength=3")
       else None
     else None).

Definition lacks (c : ascii) (s : text) : Prop := ~ In c s.

(* A text whose lines all end with CR LF, and one whose lines all end with
   LF. *)
Definition crlf (l : list text) : text := flat_map (fun x => x ++ ["013"; "010"]%char) l.
Definition lf (l : list text) : text := flat_map (fun x => x ++ ["010"]%char) l.

(* Lines that can be told apart. *)
Definition isLine (l : text) : Prop := l <> [] /\ lacks "010" l /\ lacks "013" l.

(* The description with its name replaced. *)
Definition renamed (name : text) (l : list text) : list text :=
  map (fun x => match after (txt "s=") x with Some _ => txt "s=" ++ name | None => x end) l.
