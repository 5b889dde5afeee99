(** What the announcement of an AAC stream has to tell (C102), apart from the model: the format line of RFC 3640 ends with
    the AudioSpecificConfig in hexadecimal. [ascDecode] and [adtsHeader] are in NalSpec. *)
From Coq Require Import Ascii String ZArith List Bool.
From Verif Require Import Base JsonModel NalSpec.
Notation length := List.length.
Import ListNotations.
Local Open Scope list_scope.
Local Open Scope Z_scope.

(** The value of a hexadecimal digit, either case. *)
Definition hexValue (c : ascii) : option Z :=
  let n := Z.of_nat (nat_of_ascii c) in
  if (48 <=? n) && (n <=? 57) then Some (n - 48)
  else if (65 <=? n) && (n <=? 70) then Some (n - 55)
  else if (97 <=? n) && (n <=? 102) then Some (n - 87)
  else None.
(** The bytes a hexadecimal text stands for. *)
Fixpoint readHex (t : str) : option (list Z) :=
  match t with
  | [] => Some []
  | a :: b :: r =>
    match hexValue a, hexValue b, readHex r with
    | Some x, Some y, Some l => Some (x * 16 + y :: l)
    | _, _, _ => None
    end
  | _ => None
  end.
(** The format line with the configuration [c], for payload type 97 say: a=fmtp:97 streamtype=5;...;config=[c] CR LF. *)
Definition formatLine (pt : str) (c : str) : str :=
  lit "a=fmtp:" ++ pt ++ lit " streamtype=5;profile-level-id=1;mode=AAC-hbr;sizelength=13;indexlength=3;indexdeltalength=3;config=" ++ c
  ++ ["013"%char; "010"%char].
(** The configuration tells the object type, the index of the sampling frequency and the channel configuration. *)
Definition tells (c : str) (objectType freq ch : Z) : Prop := exists e, readHex c = Some e /\ ascDecode e = (objectType, freq, ch).
(** Not a frame with an ADTS header (MPEG-4, no checksum). *)
Definition noHeader (f : list Z) : Prop := Z.of_nat (length f) < 7 \/ nth 0 f 0 <> 255 \/ nth 1 f 0 <> 241.
