(* The words in which the announcement and connection properties are stated. *)
From Coq Require Import Ascii String ZArith List Bool.
From Verif Require Import JsonModel NamesModel SdpSpec AnnModel AnnSpec.
Import ListNotations.
Local Open Scope list_scope.
Local Open Scope Z_scope.

(* What the receiver's library says of a medium it has read. *)
Definition told (m : media) : option heard :=
  match meaning m with
  | Some (n, f, c) => Some (mkHeard (mMedium m) (mPt m) n f c)
  | None => None
  end.

(* The received stream is the one that was sent: codec and, for audio, rate
   and channels. *)
Definition faithful (s : stream) (i : info) : Prop :=
  match s, i with
  | Audio k _ r c, IAudio k' _ r' c' => k' = k /\ r' = r /\ c' = c
  | Video k, IVideo k' _ _ => k' = k
  | _, _ => False
  end.
Definition received (s : stream) (m : media) : Prop :=
  exists h i, told m = Some h /\ createStreamInfo h = Some i /\ faithful s i.

(* Streams the transmitter makes a subsession for. *)
Definition offered (s : stream) : Prop :=
  match s with
  | Audio _ _ rate ch => small rate /\ small ch
  | Video k => k = H264 \/ k = H265 \/ k = VP8
  | Mux => True
  end.

(* The streams that come back as they were. *)
Definition carried (s : stream) : Prop :=
  match s with
  | Audio AAC _ _ _ | Audio OPUS _ _ _ => True
  | Audio PCM f _ _ => f <> S16
  | Audio PCMU _ rate ch => ~ (rate = 8000 /\ ch = 1)
  | Audio G711 _ rate ch => rate = 8000 /\ ch = 1
  | Video H264 | Video H265 | Video VP8 => True
  | _ => False
  end.

(* The registered name of a payload (RFC 3551, 7587, 3640, 2250, 6184, 7798,
   7741), in capitals. *)
Definition properName (s : stream) : option text :=
  match s with
  | Audio k f _ _ =>
    match k with
    | PCM => if fmt_eqb f S16 then Some (txt "L16") else if fmt_eqb f U8 then Some (txt "L8") else None
    | PCMU | G711 => Some (txt "PCMU")
    | OPUS => Some (txt "OPUS") | AAC => Some (txt "MPEG4-GENERIC") | MP3 => Some (txt "MPA")
    | AC_NONE => None
    end
  | Video H264 => Some (txt "H264") | Video H265 => Some (txt "H265") | Video VP8 => Some (txt "VP8")
  | Mux => Some (txt "MP2T")
  | Video _ => None
  end.

(* Texts of one line, or none. *)
Definition oneLine (a : option text) : Prop := match a with Some r => lacks "010" r /\ lacks "013" r | None => True end.

(* The sockets that are open after the given acts. *)
Fixpoint dropOne (p : Z) (l : list Z) : list Z :=
  match l with [] => [] | x :: r => if x =? p then r else x :: dropOne p r end.
Fixpoint live (open : list Z) (l : list act) : list Z :=
  match l with
  | [] => open
  | SockOpen p :: r => live (open ++ [p]) r
  | SockClose p :: r => live (dropOne p open) r
  | _ :: r => live open r
  end.

(* Round [k] of the search for ports finds both free, and no earlier one
   does. *)
Definition pair (k : nat) : Z * Z :=
  (port16 ((6970 + 2 * Z.of_nat k) mod U32), port16 ((6970 + 2 * Z.of_nat k) mod U32 + 1)).
Definition free (h : host) (k : nat) : bool :=
  opens h (2 * k) (fst (pair k)) && opens h (2 * k + 1) (snd (pair k)).
Definition firstFree (h : host) (k : nat) : Prop :=
  free h k = true /\ forall j, (j < k)%nat -> free h j = false.
