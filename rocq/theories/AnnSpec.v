(* What an announcement means to a client, independently of who wrote it:
   session descriptions are read with the reader of SdpSpec.v; payload types
   below 96 have the meaning of RFC 3551. *)
From Coq Require Import Ascii String ZArith List Bool.
From Verif Require Import NamesModel SdpSpec.
Import ListNotations.
Local Open Scope list_scope.
Local Open Scope Z_scope.

(* A description whose lines end with CR LF. *)
Definition readDescr (s : text) : option descr := readLines (mkDescr None []) (linesAny [] s).

(* RFC 3551, section 6: type, name, clock rate, channels. *)
Definition registered : list (Z * (text * Z * Z)) :=
  [(0, (txt "PCMU", 8000, 1)); (10, (txt "L16", 44100, 2)); (11, (txt "L16", 44100, 1));
   (14, (txt "MPA", 90000, 1)); (33, (txt "MP2T", 90000, 1))].
Fixpoint lookup (pt : Z) (l : list (Z * (text * Z * Z))) : option (text * Z * Z) :=
  match l with
  | [] => None
  | (x, v) :: r => if x =? pt then Some v else lookup pt r
  end.

(* Payload names are not case sensitive (RFC 4855): clients compare capitals. *)
Definition capital (c : ascii) : ascii :=
  let n := N_of_ascii c in
  if (97 <=? n)%N && (n <=? 122)%N then ascii_of_N (n - 32) else c.

(* The meaning of one medium of a description: type, name, clock rate and
   channels (one if none is given). *)
Definition meaning (m : media) : option (text * Z * Z) :=
  match mMap m with
  | Some (pt, n, r, c) =>
    if pt =? mPt m
    then Some (map capital n, r, match c with Some x => x | None => 1 end)
    else None
  | None => lookup (mPt m) registered
  end.

(* Sizes that fit in an unsigned int. *)
Definition small (z : Z) : Prop := 0 <= z < 4294967296.

(* A line of the head of a description that describes no medium. *)
Definition quiet (l : text) : Prop :=
  isLine l /\ after (txt "m=") l = None /\ after (txt "b=AS:") l = None
  /\ after (txt "a=rtpmap:") l = None /\ after (txt "a=fmtp:") l = None.

(* The bit rate of uncompressed audio, in bits per second. *)
Definition rawBits (bytes rate ch : Z) : Z := 8 * bytes * rate * ch.
