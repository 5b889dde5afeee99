(** What the NAL units, decoder configurations and AAC headers of a stream mean (ISO/IEC 14496-10,
    23008-2, 14496-15 and 14496-3), independently of the code. *)
From Verif Require Import Base Bytes NalModel.
Local Open Scope list_scope.
Local Open Scope Z_scope.

(** *** NAL units. The type is in the first byte. *)
Definition unitType (c : codec) (b : Z) : Z := match c with AVC => b mod 32 | HEVC => b / 2 mod 64 end.
Definition oneOf (l : list Z) (t : Z) : bool := existsb (Z.eqb t) l.
(** The types of coded slices that the dasher takes; those that start a decodable picture (IDR, and CRA
    in HEVC); parameter sets; supplemental information; access unit delimiters. *)
Definition keyTypes (c : codec) : list Z := match c with AVC => [5] | HEVC => [19; 20; 21] end.
Definition otherTypes (c : codec) : list Z := match c with AVC => [1] | HEVC => [0; 1] end.
Definition sliceTypes (c : codec) : list Z := keyTypes c ++ otherTypes c.
Definition paramTypes (c : codec) : list Z := match c with AVC => [7; 8] | HEVC => [32; 33; 34] end.
Definition seiTypes (c : codec) : list Z := match c with AVC => [6] | HEVC => [39; 40] end.
Definition delimType (c : codec) : Z := match c with AVC => 9 | HEVC => 35 end.
Definition spsType (c : codec) : Z := match c with AVC => 7 | HEVC => 33 end.
Definition knownTypes (c : codec) : list Z := sliceTypes c ++ paramTypes c ++ seiTypes c ++ [delimType c].

(** A NAL unit as received: with or without a start code in front; [ustale] is what the frame's buffer
    holds behind it. *)
Inductive startCode := Bare | Short | Long.
Record nalUnit := mkUnit { ucode : startCode; upayload : bytes; ustale : bytes }.
Definition codeBytes (s : startCode) : bytes := match s with Bare => [] | Short => [0; 0; 1] | Long => [0; 0; 0; 1] end.
Definition typeOf (c : codec) (u : nalUnit) : Z := unitType c (nth 0 (upayload u) 0).
Definition isA (c : codec) (l : list Z) (u : nalUnit) : bool := oneOf l (typeOf c u).

(** A unit that can be told from a start code: not empty, and not itself starting like one when it has
    none. A sequence parameter set has at least its header, profile and compatibility bytes. *)
Definition okUnit (c : codec) (u : nalUnit) : Prop :=
  upayload u <> [] /\ Forall isByte (upayload u) /\ Forall isByte (ustale u) /\
  (ucode u = Bare -> firstn 3 (upayload u ++ ustale u) <> [0; 0; 1] /\ firstn 4 (upayload u ++ ustale u) <> [0; 0; 0; 1]) /\
  (typeOf c u = spsType c -> 3 <= len (upayload u)).

(** *** Access units: all the units of one picture, with its times and size. *)
Record accessUnit := mkAU { aunits : list nalUnit; apts : Z; adts : Z; aw : Z; ah : Z }.
Definition wire (a : accessUnit) : list nal :=
  map (fun u => mkNal (codeBytes (ucode u) ++ upayload u) (ustale u) (apts a) (adts a) (aw a) (ah a)) (aunits a).
Definition slices (c : codec) (a : accessUnit) : list bytes := map upayload (filter (isA c (sliceTypes c)) (aunits a)).
(** The decoding time when there is one, else the presentation time. *)
Definition timeOf (a : accessUnit) : Z := if negb (adts a =? -1) && (adts a <=? apts a) then adts a else apts a.
Definition startsDelimited (c : codec) (a : accessUnit) : bool :=
  match aunits a with [] => false | u :: _ => typeOf c u =? delimType c end.
Definition sizeOf (l : list bytes) : Z := fold_right (fun x n => 4 + len x + n) 0 l.
(** A picture: it has a slice, its units are well formed, a delimiter comes only in front, and it fits
    the largest picture (10 MiB). *)
Definition okAU (c : codec) (a : accessUnit) : Prop :=
  slices c a <> [] /\ Forall (okUnit c) (aunits a) /\
  Forall (fun u => typeOf c u <> delimType c) (tl (aunits a)) /\ sizeOf (slices c a) <= 10485760.
(** Consecutive pictures can be told apart: by a delimiter or because time advances. *)
Fixpoint separated (c : codec) (l : list accessUnit) : Prop :=
  match l with
  | a :: ((b :: _) as r) => (startsDelimited c b = true \/ timeOf a < timeOf b) /\ separated c r
  | _ => True
  end.

(** *** Samples: units with a four byte length in front. *)
Fixpoint split4 (fuel : nat) (l : bytes) : option (list bytes) :=
  match l, fuel with
  | [], _ => Some []
  | _, O => None
  | _, S f =>
      let n := Z.to_nat (rd (sub 0 4 l)) in
      if (length l <? 4 + n)%nat then None
      else match split4 f (skipn (4 + n) l) with None => None | Some r => Some (sub 4 n l :: r) end
  end.
Definition unitsOf (l : bytes) : option (list bytes) := split4 (length l) l.

(** The key mark that the dasher gives: the last unit of the picture that is neither a delimiter nor of an
    unknown type is a key slice. *)
Definition decides (c : codec) (u : nalUnit) : bool := isA c (knownTypes c) u && negb (typeOf c u =? delimType c).
Definition lastIsKey (c : codec) (a : accessUnit) : bool :=
  match rev (filter (decides c) (aunits a)) with [] => false | u :: _ => isA c (keyTypes c) u end.
(** A picture is a key picture when its slices are key slices. *)
Definition isKeyPicture (c : codec) (a : accessUnit) : bool := existsb (isA c (keyTypes c)) (aunits a).

(** A picture given out carries the access unit. *)
Definition carries (c : codec) (a : accessUnit) (o : output) : Prop :=
  unitsOf (pbytes (opict o)) = Some (slices c a) /\ ppts (opict o) = apts a /\ pdts (opict o) = adts a /\
  pw (opict o) = aw a /\ ph (opict o) = ah a.

(** *** Decoder configuration records, ISO/IEC 14496-15. *)
Record avcConfig := mkAvcC { cprofile : Z; ccompat : Z; clevel : Z; clengthSize : Z; cspss : list bytes; cppss : list bytes }.
(** [n] parameter sets, each with a two byte length. *)
Fixpoint takeSets (n : nat) (l : bytes) : option (list bytes * bytes) :=
  match n with
  | O => Some ([], l)
  | S m =>
      if (length l <? 2)%nat then None
      else let k := Z.to_nat (rd (sub 0 2 l)) in
           if (length l <? 2 + k)%nat then None
           else match takeSets m (skipn (2 + k) l) with
                | None => None
                | Some (r, l') => Some (sub 2 k l :: r, l')
                end
  end.
Definition parseAvcC (l : bytes) : option avcConfig :=
  match l with
  | 1 :: p :: c :: v :: ls :: ns :: r =>
      if (ls <? 252) || (ns <? 224) then None
      else match takeSets (Z.to_nat (ns mod 32)) r with
           | Some (s, np :: r') =>
               match takeSets (Z.to_nat np) r' with
               | Some (q, []) => Some (mkAvcC p c v (ls mod 4 + 1) s q)
               | _ => None
               end
           | _ => None
           end
  | _ => None
  end.
(** Profile, compatibility and level of a sequence parameter set: the three bytes after its header. *)
Definition spsProfile (s : bytes) : Z * Z * Z := (nth 1 s 0, nth 2 s 0, nth 3 s 0).

Record hevcConfig := mkHvcC { hprofile : Z; hlevel : Z; hlengthSize : Z; harrays : list (Z * list bytes) }.
Fixpoint takeArrays (n : nat) (l : bytes) : option (list (Z * list bytes)) :=
  match n, l with
  | O, [] => Some []
  | O, _ => None
  | S m, t :: n1 :: n2 :: r =>
      match takeSets (Z.to_nat (n1 * 256 + n2)) r with
      | None => None
      | Some (s, r') => match takeArrays m r' with None => None | Some a => Some ((t mod 64, s) :: a) end
      end
  | S _, _ => None
  end.
Definition parseHvcC (l : bytes) : option hevcConfig :=
  if (length l <? 23)%nat then None
  else if negb (nth 0 l 0 =? 1) then None
  else match takeArrays (Z.to_nat (nth 22 l 0)) (skipn 23 l) with
       | None => None
       | Some a => Some (mkHvcC (nth 1 l 0 mod 32) (nth 12 l 0) (nth 21 l 0 mod 4 + 1) a)
       end.
(** general_profile_idc and general_level_idc of an HEVC sequence parameter set without emulation
    prevention: two header bytes, one byte of identifiers, then profile_tier_level. *)
Definition hevcSpsProfile (s : bytes) : Z * Z := (nth 3 s 0 mod 32, nth 14 s 0).

(** The parameter sets of a list of units, in order. *)
Definition paramsOf (c : codec) (l : list nalUnit) : list (Z * bytes) :=
  map (fun u => (typeOf c u, upayload u)) (filter (isA c (paramTypes c)) l).

(** *** AAC. An ADTS header without checksum: syncword, MPEG-4, layer 0, profile, frequency index,
    private bit, channel configuration and the remaining bits. *)
Definition adtsHeader (profile freq private chan low6 b4 b5 b6 : Z) : bytes :=
  [255; 241; profile * 64 + freq * 4 + private * 2 + chan / 4; (chan mod 4) * 64 + low6; b4; b5; b6].
(** AudioSpecificConfig: five bits object type, four bits frequency index, four bits channels. *)
Definition ascDecode (l : bytes) : Z * Z * Z := let v := rd (firstn 2 l) in (v / 2048, v / 128 mod 16, v / 8 mod 16).
