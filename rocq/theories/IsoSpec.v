(** An independent reader of ISO base media files (ISO/IEC 14496-12), written from the standard. *)
From Coq Require Import String.
From Verif Require Import Base Bytes.
Local Open Scope list_scope.
Local Open Scope Z_scope.

(** A box is four bytes of size (of the whole box), four bytes of type and a payload; the payload of
    some types is a header followed by boxes. *)
Inductive box :=
| Leaf (ty payload : bytes)
| Node (ty header : bytes) (children : list box).

Definition bytesEqb (a b : bytes) : bool := if list_eq_dec Z.eq_dec a b then true else false.
(** Types that contain boxes, with the length of what precedes them in the payload: plain containers;
    'dref' and 'stsd' have version, flags and an entry count; sample entries have their fields. *)
Definition containers : list (string * nat) :=
  [("moov", 0%nat); ("mvex", 0%nat); ("trak", 0%nat); ("mdia", 0%nat); ("minf", 0%nat); ("dinf", 0%nat); ("stbl", 0%nat);
   ("moof", 0%nat); ("traf", 0%nat); ("dref", 8%nat); ("stsd", 8%nat); ("avc1", 78%nat); ("hev1", 78%nat); ("mp4a", 28%nat)]%string.
Fixpoint lookup (ty : bytes) (l : list (string * nat)) : option nat :=
  match l with [] => None | (s, n) :: t => if bytesEqb (tag s) ty then Some n else lookup ty t end.
Definition headerOf (ty : bytes) : option nat := lookup ty containers.

Fixpoint parseBoxes (fuel : nat) (l : bytes) : option (list box) :=
  match l, fuel with
  | [], _ => Some []
  | _, O => None
  | _, S f =>
      let n := rd (firstn 4 l) in
      if (len l <? 8) || (n <? 8) || (len l <? n) then None
      else
        let ty := sub 4 4 l in
        let payload := sub 8 (Z.to_nat n - 8) l in
        let this := match headerOf ty with
                    | None => Some (Leaf ty payload)
                    | Some h => if len payload <? Z.of_nat h then None
                                else match parseBoxes f (skipn h payload) with
                                     | Some ch => Some (Node ty (firstn h payload) ch)
                                     | None => None
                                     end
                    end in
        match this, parseBoxes f (skipn (Z.to_nat n) l) with
        | Some b, Some r => Some (b :: r)
        | _, _ => None
        end
  end.
(** The boxes of a file: every size is consistent and nothing is left over, at every level. *)
Definition parseFile (l : bytes) : option (list box) := parseBoxes (length l) l.

Definition typeOf (b : box) : bytes := match b with Leaf t _ | Node t _ _ => t end.
Definition fields (b : box) : bytes := match b with Leaf _ p => p | Node _ h _ => h end.
Definition childrenOf (b : box) : list box := match b with Leaf _ _ => [] | Node _ _ c => c end.

(** The nesting of types, as a text per level. *)
Inductive shape := T (ty : string) (c : list shape).
Fixpoint hasShape (b : box) (s : shape) {struct b} : Prop :=
  match s with
  | T ty cs =>
      typeOf b = tag ty /\
      match b with
      | Leaf _ _ => cs = []
      | Node _ _ bs =>
          (fix go (bs : list box) (cs : list shape) : Prop :=
             match bs, cs with
             | [], [] => True
             | b :: bs, c :: cs => hasShape b c /\ go bs cs
             | _, _ => False
             end) bs cs
      end
  end.
Definition shapes (bs : list box) (cs : list shape) : Prop := hasShape (Node [] [] bs) (T "" cs).

(** The first box on a path of types. *)
Fixpoint first (ty : string) (bs : list box) : option box :=
  match bs with [] => None | b :: t => if bytesEqb (typeOf b) (tag ty) then Some b else first ty t end.
Fixpoint find (path : list string) (bs : list box) : option box :=
  match path with
  | [] => None
  | [ty] => first ty bs
  | ty :: rest => match first ty bs with Some b => find rest (childrenOf b) | None => None end
  end.
(** [n] bytes at offset [off] of the fields of a box, as a number. *)
Definition field (bs : list box) (path : list string) (off n : nat) : option Z :=
  match find path bs with Some b => Some (rd (sub off n (fields b))) | None => None end.
Definition raw (bs : list box) (path : list string) : option bytes :=
  match find path bs with Some b => Some (fields b) | None => None end.

Local Open Scope string_scope.
(** The expected nesting of an initialisation segment; [media]: the media header; [entry]:
    sample entry and decoder configuration. *)
Definition initShape (media entry config : string) : list shape :=
  [T "ftyp" [];
   T "moov" [T "mvhd" []; T "mvex" [T "trex" []];
             T "trak" [T "tkhd" [];
                       T "mdia" [T "mdhd" []; T "hdlr" [];
                                 T "minf" [T media []; T "dinf" [T "dref" [T "url " []]];
                                           T "stbl" [T "stsd" [T entry [T config []]]; T "stts" []; T "stsc" []; T "stsz" []; T "stco" []]]]]]].
(** The expected nesting of a media segment. *)
Definition segmentShape : list shape :=
  [T "styp" []; T "sidx" []; T "moof" [T "mfhd" []; T "traf" [T "tfhd" []; T "tfdt" []; T "trun" []]]; T "mdat" []].
Local Close Scope string_scope.

(** *** Fields with one right value: where (path, offset, number of bytes) and the value. *)
Definition constant := (list string * nat * nat * Z)%type.
Definition fixedAt (p : list string) (off n : nat) (v : Z) : constant := (p, off, n, v).
Definition holds (bs : list box) (e : constant) : Prop :=
  let '(p, off, n, v) := e in
  match find p bs with Some b => (off + n <= length (fields b))%nat /\ rd (sub off n (fields b)) = v | None => False end.
(** Boxes of a fixed size: the number of bytes of their fields. *)
Definition sized1 (bs : list box) (e : list string * nat) : Prop :=
  match find (fst e) bs with Some b => length (fields b) = snd e | None => False end.

Local Open Scope string_scope.
Local Open Scope list_scope.
Local Open Scope Z_scope.
(** Version 0, no flags. *)
Definition plainBox (p : list string) : constant := fixedAt p 0 4 0.
(** The transformation matrix that leaves the picture as it is, 16.16 numbers but the last column, 2.30. *)
Definition identityAt (p : list string) (off : nat) : list constant :=
  map (fun iv => (p, (off + 4 * fst iv)%nat, 4%nat, snd iv))
      [(0%nat, 65536); (1%nat, 0); (2%nat, 0); (3%nat, 0); (4%nat, 65536); (5%nat, 0); (6%nat, 0); (7%nat, 0); (8%nat, 1073741824)].
(** Three letters, five bits each. *)
Definition language (a b c : Z) : Z := ((a - 96) * 32 + (b - 96)) * 32 + (c - 96).
Definition trakP := ["moov"; "trak"].
Definition stblP := ["moov"; "trak"; "mdia"; "minf"; "stbl"].
(** ftyp: major brand iso6 and the compatible ones. mvhd 8.2.2: no creation or modification time, 1000 units a
    second, duration unknown (fragments follow), normal speed 1.0, full volume 1.0, reserved, matrix. trex 8.8.3:
    first sample description, no default size or flags. tkhd 8.3.2: enabled, in the movie and its preview, size given
    as aspect ratio (flags 15); no times, duration unknown, layer 0, no group. mdhd 8.4.2: English. hdlr 8.4.3.
    dref 8.7.2: one entry, data in this file (flag 1). stsd 8.5.2. Empty sample tables. *)
Definition initConstants : list constant :=
  [fixedAt ["ftyp"] 0 4 (rd (tag "iso6")); fixedAt ["ftyp"] 4 4 1; fixedAt ["ftyp"] 8 4 (rd (tag "isom")); fixedAt ["ftyp"] 12 4 (rd (tag "iso6"));
   fixedAt ["ftyp"] 16 4 (rd (tag "dash"));
   plainBox ["moov"; "mvhd"]; fixedAt ["moov"; "mvhd"] 4 4 0; fixedAt ["moov"; "mvhd"] 8 4 0; fixedAt ["moov"; "mvhd"] 12 4 1000;
   fixedAt ["moov"; "mvhd"] 16 4 0; fixedAt ["moov"; "mvhd"] 20 4 65536; fixedAt ["moov"; "mvhd"] 24 2 256; fixedAt ["moov"; "mvhd"] 26 10 0;
   fixedAt ["moov"; "mvhd"] 72 24 0;
   plainBox ["moov"; "mvex"; "trex"]; fixedAt ["moov"; "mvex"; "trex"] 4 4 1; fixedAt ["moov"; "mvex"; "trex"] 8 4 1;
   fixedAt ["moov"; "mvex"; "trex"] 16 4 0; fixedAt ["moov"; "mvex"; "trex"] 20 4 0;
   fixedAt (trakP ++ ["tkhd"]) 0 1 0; fixedAt (trakP ++ ["tkhd"]) 1 3 15; fixedAt (trakP ++ ["tkhd"]) 4 4 0; fixedAt (trakP ++ ["tkhd"]) 8 4 0;
   fixedAt (trakP ++ ["tkhd"]) 12 4 1; fixedAt (trakP ++ ["tkhd"]) 16 4 0; fixedAt (trakP ++ ["tkhd"]) 20 4 0; fixedAt (trakP ++ ["tkhd"]) 24 8 0;
   fixedAt (trakP ++ ["tkhd"]) 32 4 0; fixedAt (trakP ++ ["tkhd"]) 38 2 0;
   plainBox (trakP ++ ["mdia"; "mdhd"]); fixedAt (trakP ++ ["mdia"; "mdhd"]) 4 4 0; fixedAt (trakP ++ ["mdia"; "mdhd"]) 8 4 0;
   fixedAt (trakP ++ ["mdia"; "mdhd"]) 16 4 0; fixedAt (trakP ++ ["mdia"; "mdhd"]) 20 2 (language 101 110 103); fixedAt (trakP ++ ["mdia"; "mdhd"]) 22 2 0;
   plainBox (trakP ++ ["mdia"; "hdlr"]); fixedAt (trakP ++ ["mdia"; "hdlr"]) 4 4 0; fixedAt (trakP ++ ["mdia"; "hdlr"]) 12 12 0;
   plainBox (trakP ++ ["mdia"; "minf"; "dinf"; "dref"]); fixedAt (trakP ++ ["mdia"; "minf"; "dinf"; "dref"]) 4 4 1;
   fixedAt (trakP ++ ["mdia"; "minf"; "dinf"; "dref"; "url "]) 0 4 1;
   plainBox (stblP ++ ["stsd"]); fixedAt (stblP ++ ["stsd"]) 4 4 1;
   fixedAt (stblP ++ ["stts"]) 0 8 0; fixedAt (stblP ++ ["stsc"]) 0 8 0; fixedAt (stblP ++ ["stsz"]) 0 12 0; fixedAt (stblP ++ ["stco"]) 0 8 0]
  ++ identityAt ["moov"; "mvhd"] 36 ++ identityAt (trakP ++ ["tkhd"]) 40.
(** Video: silent track; vmhd 12.1.2 (flag 1, copy, no colour); visual sample entry 12.1.3: data reference 1,
    72 dots per inch both ways, one picture per sample, no compressor name, 24 bits of colour. *)
Definition videoConstants (entry : string) : list constant :=
  [fixedAt (trakP ++ ["tkhd"]) 36 2 0; fixedAt (trakP ++ ["mdia"; "hdlr"]) 8 4 (rd (tag "vide"));
   fixedAt (trakP ++ ["mdia"; "minf"; "vmhd"]) 0 4 1; fixedAt (trakP ++ ["mdia"; "minf"; "vmhd"]) 4 8 0;
   fixedAt (stblP ++ ["stsd"; entry]) 0 6 0; fixedAt (stblP ++ ["stsd"; entry]) 6 2 1; fixedAt (stblP ++ ["stsd"; entry]) 8 16 0;
   fixedAt (stblP ++ ["stsd"; entry]) 28 4 (72 * 65536); fixedAt (stblP ++ ["stsd"; entry]) 32 4 (72 * 65536); fixedAt (stblP ++ ["stsd"; entry]) 36 4 0;
   fixedAt (stblP ++ ["stsd"; entry]) 40 2 1; fixedAt (stblP ++ ["stsd"; entry]) 42 32 0; fixedAt (stblP ++ ["stsd"; entry]) 74 2 24;
   fixedAt (stblP ++ ["stsd"; entry]) 76 2 65535].
(** Sound: full volume, no size; smhd 12.2.2 (balance in the centre); audio sample entry 12.2.3. In the descriptor
    (14496-1 7.2.6): MPEG-4 audio (0x40), an audio stream (5 * 4 + 1). *)
Definition audioConstants : list constant :=
  [fixedAt (trakP ++ ["tkhd"]) 36 2 256; fixedAt (trakP ++ ["tkhd"]) 76 8 0; fixedAt (trakP ++ ["mdia"; "hdlr"]) 8 4 (rd (tag "soun"));
   fixedAt (trakP ++ ["mdia"; "minf"; "smhd"]) 0 8 0;
   fixedAt (stblP ++ ["stsd"; "mp4a"]) 0 6 0; fixedAt (stblP ++ ["stsd"; "mp4a"]) 6 2 1; fixedAt (stblP ++ ["stsd"; "mp4a"]) 8 8 0;
   fixedAt (stblP ++ ["stsd"; "mp4a"]) 20 4 0;
   plainBox (stblP ++ ["stsd"; "mp4a"; "esds"]); fixedAt (stblP ++ ["stsd"; "mp4a"; "esds"]) 11 1 64;
   fixedAt (stblP ++ ["stsd"; "mp4a"; "esds"]) 12 1 (5 * 4 + 1); fixedAt (stblP ++ ["stsd"; "mp4a"; "esds"]) 13 3 0].
(** Media segments: brands; sidx 8.16.3 version 1, of track 1, one reference to media (not to another index), it
    starts with an access point of type 1 at once; mfhd 8.8.5; tfhd 8.8.7: track 1, offsets from the fragment;
    tfdt 8.8.12 version 1. *)
Definition segmentConstants : list constant :=
  [fixedAt ["styp"] 0 4 (rd (tag "iso6")); fixedAt ["styp"] 4 4 1; fixedAt ["styp"] 8 4 (rd (tag "isom")); fixedAt ["styp"] 12 4 (rd (tag "iso6"));
   fixedAt ["styp"] 16 4 (rd (tag "dash"));
   fixedAt ["sidx"] 0 1 1; fixedAt ["sidx"] 1 3 0; fixedAt ["sidx"] 4 4 1; fixedAt ["sidx"] 28 2 0; fixedAt ["sidx"] 30 2 1;
   fixedAt ["sidx"] 40 1 (128 + 1 * 16); fixedAt ["sidx"] 41 3 0;
   plainBox ["moof"; "mfhd"];
   fixedAt ["moof"; "traf"; "tfhd"] 0 4 131072; fixedAt ["moof"; "traf"; "tfhd"] 4 4 1;
   fixedAt ["moof"; "traf"; "tfdt"] 0 1 1; fixedAt ["moof"; "traf"; "tfdt"] 1 3 0].
Definition initSizes : list (list string * nat) :=
  [(["moov"; "mvhd"], 100%nat); (["moov"; "mvex"; "trex"], 24%nat); (trakP ++ ["tkhd"], 84%nat); (trakP ++ ["mdia"; "mdhd"], 24%nat);
   (trakP ++ ["mdia"; "minf"; "dinf"; "dref"; "url "], 4%nat); (stblP ++ ["stts"], 8%nat); (stblP ++ ["stsc"], 8%nat);
   (stblP ++ ["stsz"], 12%nat); (stblP ++ ["stco"], 8%nat)].
Definition videoSizes : list (list string * nat) := [(trakP ++ ["mdia"; "minf"; "vmhd"], 12%nat)].
Definition audioSizes : list (list string * nat) := [(trakP ++ ["mdia"; "minf"; "smhd"], 8%nat)].
Definition segmentSizes : list (list string * nat) :=
  [(["sidx"], 44%nat); (["moof"; "mfhd"], 8%nat); (["moof"; "traf"; "tfhd"], 8%nat); (["moof"; "traf"; "tfdt"], 12%nat)].
Local Close Scope string_scope.

(** *** Descriptors (ISO/IEC 14496-1): a tag, a size of one byte below 128, the contents. *)
Fixpoint descriptors (fuel : nat) (l : bytes) : option (list (Z * bytes)) :=
  match l, fuel with
  | [], _ => Some []
  | t :: n :: r, S f =>
      if (128 <=? n) || (len r <? n) then None
      else match descriptors f (skipn (Z.to_nat n) r) with
           | Some ds => Some ((t, firstn (Z.to_nat n) r) :: ds)
           | None => None
           end
  | _, _ => None
  end.
(** The decoder specific info in an 'esds' box: ES descriptor 3 (3 bytes of fields), decoder config
    descriptor 4 (13 bytes of fields), decoder specific info 5. *)
Definition decoderInfo (l : bytes) : option bytes :=
  match descriptors (length l) (skipn 4 l) with
  | Some [(3, es)] =>
      match descriptors (length l) (skipn 3 es) with
      | Some [(4, dc); (6, _)] =>
          match descriptors (length l) (skipn 13 dc) with Some [(5, info)] => Some info | _ => None end
      | _ => None
      end
  | _ => None
  end.

(** *** Movie fragments *)

(** What a player gets for each sample: the bytes, the duration, the composition offset and whether
    it is a sync sample. *)
Record access := mkAccess { abytes : bytes; adur : Z; acomp : Z; async : bool }.

(** The entries of a track run: which of duration (0x100), size (0x200), flags (0x400) and composition
    offset (0x800) are present is said by the flags of the box. *)
Definition bit (flags mask : Z) : bool := Z.odd (flags / mask).
Definition take4 (present : bool) (dflt : Z) (l : bytes) : option (Z * bytes) :=
  if present then if len l <? 4 then None else Some (rd (firstn 4 l), skipn 4 l) else Some (dflt, l).
Fixpoint entries (n : nat) (flags : Z) (l : bytes) : option (list (Z * Z * Z * Z)) :=
  match n with
  | O => match l with [] => Some [] | _ => None end
  | S m =>
      match take4 (bit flags 256) 0 l with None => None | Some (d, l) =>
      match take4 (bit flags 512) 0 l with None => None | Some (s, l) =>
      match take4 (bit flags 1024) 0 l with None => None | Some (f, l) =>
      match take4 (bit flags 2048) 0 l with None => None | Some (c, l) =>
      match entries m flags l with None => None | Some r => Some ((d, s, f, c) :: r) end end end end end
  end.
(** The samples lie one after the other from the given position of the file. *)
Fixpoint cut (l : bytes) (es : list (Z * Z * Z * Z)) : option (list access) :=
  match es with
  | [] => Some []
  | (d, s, f, c) :: r =>
      if len l <? s then None
      else match cut (skipn (Z.to_nat s) l) r with
           | Some a => Some (mkAccess (firstn (Z.to_nat s) l) d c (negb (bit f 65536)) :: a)
           | None => None
           end
  end.
(** A fragment file: its sequence number, decode time and samples. The run needs a data offset
    (flag 1), relative to the first byte of the 'moof' box ('tfhd' flag 0x20000). *)
Definition startOf (l : bytes) (f : nat) (ty : string) : option nat :=
  (fix go (fuel : nat) (l : bytes) (pos : nat) : option nat :=
     match fuel with
     | O => None
     | S f => if len l <? 8 then None
              else if bytesEqb (sub 4 4 l) (tag ty) then Some pos
              else let n := Z.to_nat (rd (firstn 4 l)) in if Nat.ltb n 8 then None else go f (skipn n l) (pos + n)%nat
     end) f l 0%nat.
(** The decode time of the first sample: 8 bytes in version 1 of the box, 4 in version 0. *)
Definition decodeTime (bs : list box) : option Z :=
  match field bs ["moof"; "traf"; "tfdt"]%string 0 1 with
  | Some 1 => field bs ["moof"; "traf"; "tfdt"]%string 4 8
  | Some 0 => field bs ["moof"; "traf"; "tfdt"]%string 4 4
  | _ => None
  end.
Record fragment := mkFragment { fseq : Z; fbase : Z; faccess : list access }.
Definition demux (l : bytes) : option fragment :=
  match parseFile l, startOf l (length l) "moof" with
  | Some bs, Some moof =>
      match raw bs ["moof"; "traf"; "trun"]%string, field bs ["moof"; "mfhd"]%string 4 4, decodeTime bs,
            field bs ["moof"; "traf"; "tfhd"]%string 0 4 with
      | Some run, Some sq, Some base, Some hd =>
          let flags := rd (sub 0 4 run) mod 16777216 in
          let n := rd (sub 4 4 run) in
          let off := rd (sub 8 4 run) in
          if negb (bit flags 1) || negb (bit hd 131072) then None
          else match entries (Z.to_nat n) flags (skipn 12 run) with
               | Some es => match cut (skipn (moof + Z.to_nat off) l) es with
                            | Some a => Some (mkFragment sq base a)
                            | None => None
                            end
               | None => None
               end
      | _, _, _, _ => None
      end
  | _, _ => None
  end.
