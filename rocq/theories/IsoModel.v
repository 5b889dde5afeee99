(** Model of the ISO base media file writer, src/modules/dasher/i2libisoff.c.

    Every write_* copies consecutive fields and returns the number of bytes: the model returns the
    bytes. [counted]: the size field is the final count; [sized n]: it is the constant [n].
    htonl/htons of a field are [be 4] / [be 2]; a field copied without htonl is [le 4]
    (little-endian machine). Not modelled: null pointer checks, the checks "size < 8" of nested boxes
    (each box writes its 8-byte header), sizes of 2^32 bytes and more, the capacity of the output
    buffer, malloc. *)
From Coq Require Import String.
From Verif Require Import Base Bytes.
Local Open Scope list_scope.
Local Open Scope Z_scope.

(** A box with its size and type, as at the end and at the start of every write_* of i2libisoff.c
    (write_dref 891-918, write_smhd 847-870). *)
Definition counted (ty : string) (body : bytes) : bytes := be 4 (4 + 4 + len body) ++ tag ty ++ body.
(** A box with its size and type, as at the end and at the start of every write_* of i2libisoff.c
    (write_dref 891-918, write_smhd 847-870). *)
Definition sized (n : Z) (ty : string) (body : bytes) : bytes := be 4 n ++ tag ty ++ body.
(** Fields of i2libisoff.c that are zero. *)
Definition zeros (n : nat) : bytes := repeat 0 n.
(** A uint32_t copied as it is in memory. *)
Definition le4 (z : Z) : bytes := [z mod 256; z / 256 mod 256; z / 65536 mod 256; z / 16777216 mod 256].

(** i2context.h 30-33. *)
Inductive media := NO_TYPE | VIDEO_AVC | VIDEO_HEVC | AUDIO.
(** i2libisoff.c 149. *)
Definition isVideo (m : media) : bool := match m with VIDEO_AVC | VIDEO_HEVC => true | _ => false end.

(** mdat_sample, i2context.h 52-59. *)
Record sample := mkSample { ssize : Z; sdur : Z; spts : Z; skey : bool; sdts : Z }.

(** i2ctx_video / i2ctx_audio with their i2ctx_sample and the duration and reference_size of
    i2ctx, i2context.h 61-112. Video uses cwidth, cheight; audio cchannels, crate, cbits. *)
Record ctx := mkCtx {
  cmedia : media;
  cconfig : bytes;            (* pps_sps_data / aac_data *)
  cdata : bytes;              (* segment_data *)
  ctimebase : Z;
  csampledur : Z;             (* sample_duration: never set for video *)
  cwidth : Z; cheight : Z;
  cchannels : Z; crate : Z; cbits : Z;
  cept : Z;                   (* earliest_presentation_time *)
  cseq : Z;
  cdur : Z;                   (* current_{video,audio}_duration *)
  csamples : list sample;
  cflags : Z;                 (* box_flags *)
  cmoof : Z; ctrun : Z;       (* moof_pos, trun_pos *)
  ctarget : Z                 (* i2ctx.duration *)
}.

(** write_matrix, 1987-2050. *)
Definition write_matrix (a b c d tx ty : Z) : bytes :=
  be 4 (a * 65536) ++ be 4 (b * 65536) ++ zeros 4 ++ be 4 (c * 65536) ++ be 4 (d * 65536) ++ zeros 4 ++
  be 4 (tx * 65536) ++ be 4 (ty * 65536) ++ be 4 1073741824.

(** write_ftyp, 266-298. *)
Definition write_ftyp : bytes := counted "ftyp" (tag "iso6" ++ be 4 1 ++ tag "isom" ++ tag "iso6" ++ tag "dash").

(** write_mvhd, 332-417. *)
Definition write_mvhd : bytes :=
  counted "mvhd" (zeros 4 ++ zeros 4 ++ zeros 4 ++ be 4 1000 ++ zeros 4 ++ be 4 65536 ++ be 2 256 ++ zeros 2 ++ zeros 4 ++ zeros 4 ++
                  write_matrix 1 0 0 1 0 0 ++ zeros 24 ++ be 4 1).

(** write_trex, 440-497. *)
Definition write_trex (c : ctx) : bytes :=
  sized 32 "trex" (zeros 4 ++ be 4 1 ++ be 4 1 ++ be 4 (csampledur c) ++ zeros 4 ++ zeros 4).

(** write_mvex, 419-438. *)
Definition write_mvex (c : ctx) : bytes := counted "mvex" (write_trex c).

(** write_tkhd, 525-626. *)
Definition write_tkhd (m : media) (c : ctx) : bytes :=
  counted "tkhd" (zeros 1 ++ zeros 1 ++ be 2 15 ++ zeros 4 ++ zeros 4 ++ be 4 1 ++ zeros 4 ++ zeros 4 ++ zeros 12 ++
                  (if isVideo m then be 2 0 else be 2 256) ++ zeros 2 ++ write_matrix 1 0 0 1 0 0 ++
                  (if isVideo m then be 4 (cwidth c * 65536) ++ be 4 (cheight c * 65536) else zeros 4 ++ zeros 4)).

(** write_mdhd, 660-723. *)
Definition write_mdhd (c : ctx) : bytes :=
  counted "mdhd" (zeros 4 ++ zeros 4 ++ zeros 4 ++ be 4 (ctimebase c) ++ zeros 4 ++ be 2 5575 ++ zeros 2).

(** write_hdlr, 725-776; the handler names are copied with their terminating zero. *)
Definition write_hdlr (m : media) : bytes :=
  counted "hdlr" (zeros 4 ++ zeros 4 ++ (if isVideo m then tag "vide" else tag "soun") ++ zeros 12 ++
                  (if isVideo m then tag "VideoHandler" ++ [0] else tag "SoundHandler" ++ [0])).

(** write_vmhd 814-845, write_smhd 847-870. *)
Definition write_vmhd : bytes := sized 20 "vmhd" (be 4 1 ++ zeros 4 ++ zeros 4).
(** i2libisoff.c 847-870 *)
Definition write_smhd : bytes := sized 16 "smhd" (zeros 8).

(** write_url 920-942, write_dref 891-918, write_dinf 872-888. *)
Definition write_url : bytes := sized 12 "url " (be 4 1).
(** i2libisoff.c 891-918 *)
Definition write_dref : bytes := counted "dref" (zeros 4 ++ be 4 1 ++ write_url).
(** i2libisoff.c 872-888 *)
Definition write_dinf : bytes := counted "dinf" write_dref.

(** write_avcc 1233-1255, write_hvcc 1257-1279. *)
Definition write_avcc (c : ctx) : bytes := sized (len (cconfig c) + 8) "avcC" (cconfig c).
(** i2libisoff.c 1257-1279 *)
Definition write_hvcc (c : ctx) : bytes := sized (len (cconfig c) + 8) "hvcC" (cconfig c).

(** The fields common to write_avc1 1041-1135 and write_hev1 1137-1231. *)
Definition visualEntry (c : ctx) : bytes :=
  zeros 4 ++ zeros 2 ++ be 2 1 ++ zeros 8 ++ zeros 8 ++ be 2 (cwidth c) ++ be 2 (cheight c) ++ be 4 4718592 ++ be 4 4718592 ++
  zeros 4 ++ be 2 1 ++ zeros 8 ++ zeros 4 ++ zeros 8 ++ zeros 8 ++ zeros 4 ++ be 2 24 ++ be 2 65535.
(** i2libisoff.c 1041-1135 *)
Definition write_avc1 (c : ctx) : bytes := counted "avc1" (visualEntry c ++ write_avcc c).
(** i2libisoff.c 1137-1231 *)
Definition write_hev1 (c : ctx) : bytes := counted "hev1" (visualEntry c ++ write_hvcc c).

(** write_esds, 1353-1461. *)
Definition write_esds (c : ctx) : bytes :=
  let n := len (cconfig c) in
  counted "esds" (zeros 4 ++ [3; (23 + n) mod 128] ++ be 2 1 ++ [0] ++ [4; (15 + n) mod 128] ++ [64] ++ [21] ++ zeros 2 ++ zeros 1 ++
                  be 4 127313 ++ be 4 127309 ++ [5; n mod 128] ++ cconfig c ++ [6; 1; 2]).

(** write_mp4a, 1281-1351: the 16 bits of the time base come before those of the sample rate. *)
Definition write_mp4a (c : ctx) : bytes :=
  counted "mp4a" (zeros 4 ++ zeros 2 ++ be 2 1 ++ zeros 4 ++ zeros 4 ++ be 2 (cchannels c) ++ be 2 (cbits c) ++ zeros 4 ++
                  be 2 (ctimebase c) ++ be 2 (crate c) ++ write_esds c).

(** write_stsd, 986-1038. *)
Definition write_stsd (m : media) (c : ctx) : bytes :=
  counted "stsd" (zeros 4 ++ be 4 1 ++
                  match m with VIDEO_AVC => write_avc1 c | VIDEO_HEVC => write_hev1 c | _ => write_mp4a c end).

(** write_stts, write_stsc, write_stsz, write_stco, 1463-1573. *)
Definition write_stts : bytes := sized 16 "stts" (zeros 4 ++ zeros 4).
(** i2libisoff.c 1490-1515 *)
Definition write_stsc : bytes := sized 16 "stsc" (zeros 4 ++ zeros 4).
(** i2libisoff.c 1517-1546 *)
Definition write_stsz : bytes := sized 20 "stsz" (zeros 4 ++ zeros 4 ++ zeros 4).
(** i2libisoff.c 1548-1573 *)
Definition write_stco : bytes := sized 16 "stco" (zeros 4 ++ zeros 4).

(** write_stbl, 944-984. *)
Definition write_stbl (m : media) (c : ctx) : bytes :=
  counted "stbl" (write_stsd m c ++ write_stts ++ write_stsc ++ write_stsz ++ write_stco).

(** write_minf, 778-812. *)
Definition write_minf (m : media) (c : ctx) : bytes :=
  counted "minf" ((if isVideo m then write_vmhd else write_smhd) ++ write_dinf ++ write_stbl m c).

(** write_mdia 628-658, write_trak 499-523, write_moov 300-330. *)
Definition write_mdia (m : media) (c : ctx) : bytes := counted "mdia" (write_mdhd c ++ write_hdlr m ++ write_minf m c).
(** i2libisoff.c 499-523 *)
Definition write_trak (m : media) (c : ctx) : bytes := counted "trak" (write_tkhd m c ++ write_mdia m c).
(** i2libisoff.c 300-330 *)
Definition write_moov (m : media) (c : ctx) : bytes := counted "moov" (write_mvhd ++ write_mvex c ++ write_trak m c).

(** initVideoGenerator 136-171, initAudioGenerator 174-207; [None]: an error code. *)
Definition withConfig (c : ctx) (d : bytes) : ctx :=
  mkCtx (cmedia c) d (cdata c) (ctimebase c) (csampledur c) (cwidth c) (cheight c) (cchannels c) (crate c) (cbits c) (cept c) (cseq c)
        (cdur c) (csamples c) (cflags c) (cmoof c) (ctrun c) (ctarget c).
(** i2libisoff.c 136-171 *)
Definition initVideoGenerator (src : bytes) (c : ctx) : option (bytes * ctx) :=
  if len src <? 1 then None
  else if negb (isVideo (cmedia c)) then None
  else let c := withConfig c src in Some (write_ftyp ++ write_moov (cmedia c) c, c).
(** i2libisoff.c 174-207 *)
Definition initAudioGenerator (src : bytes) (c : ctx) : option (bytes * ctx) :=
  if len src <? 1 then None
  else let c := withConfig c src in Some (write_ftyp ++ write_moov AUDIO c, c).

(** write_styp, 1575-1609. *)
Definition write_styp : bytes := sized 28 "styp" (tag "iso6" ++ be 4 1 ++ tag "isom" ++ tag "iso6" ++ tag "dash").

(** write_sidx, 1611-1706. *)
Definition write_sidx (c : ctx) (reference_size : Z) : bytes :=
  counted "sidx" (le4 1 ++ be 4 1 ++ be 4 (ctimebase c) ++ be 8 (cept c) ++ be 8 0 ++ zeros 2 ++ be 2 1 ++ be 4 reference_size ++
                  be 4 (cdur c) ++ [144] ++ zeros 2 ++ zeros 1).

(** write_mfhd 1746-1779, write_tfhd 1822-1850, write_tfdt 1852-1890. *)
Definition write_mfhd (c : ctx) : bytes := sized 16 "mfhd" (zeros 4 ++ be 4 (cseq c)).
(** i2libisoff.c 1822-1850 *)
Definition write_tfhd : bytes := sized 16 "tfhd" (be 4 131072 ++ be 4 1).
(** i2libisoff.c 1852-1890 *)
Definition write_tfdt (c : ctx) : bytes := sized (4 + 4 + 4 + 8) "tfdt" (le4 1 ++ be 8 (cept c)).

(** write_trun, 1892-1969. *)
Definition trunEntry (m : media) (s : sample) : bytes :=
  be 4 (sdur s) ++ be 4 (ssize s) ++
  (if isVideo m then be 4 (if skey s then 0 else 65536) ++ be 4 (spts s - sdts s) else []).
(** i2libisoff.c 1892-1969 *)
Definition write_trun (m : media) (c : ctx) : bytes :=
  let nitems := if isVideo m then 4 else 2 in
  let n := Z.of_nat (length (csamples c)) in
  let offset := (ctrun c - cmoof c) + 20 + n * nitems * 4 + 8 in
  counted "trun" (be 4 (cflags c) ++ be 4 n ++ be 4 offset ++ concat (map (trunEntry m) (csamples c))).

(** i2libisoff.c 1892-1969: moof_pos and trun_pos while boxes are written. *)
Definition addPos (c : ctx) (dt dm : Z) : ctx :=
  mkCtx (cmedia c) (cconfig c) (cdata c) (ctimebase c) (csampledur c) (cwidth c) (cheight c) (cchannels c) (crate c) (cbits c) (cept c)
        (cseq c) (cdur c) (csamples c) (cflags c) (cmoof c + dm) (ctrun c + dt) (ctarget c).

(** write_traf, 1781-1820: trun_pos is advanced by what was written before the run. *)
Definition write_traf (m : media) (c : ctx) : bytes * ctx :=
  let before := write_tfhd ++ write_tfdt c in
  let c := addPos c (4 + 4 + len before) 0 in
  (counted "traf" (before ++ write_trun m c), c).
(** write_moof, 1708-1744. *)
Definition write_moof (m : media) (c : ctx) : bytes * ctx :=
  let before := write_mfhd c in
  let c := addPos c (4 + 4 + len before) 0 in
  let '(traf, c) := write_traf m c in
  (counted "moof" (before ++ traf), c).
(** write_mdat, 1971-1985. *)
Definition write_mdat (src : bytes) : bytes := sized (len src + 8) "mdat" src.

(** segmentGenerator, 209-264. [ref0]: the reference_size left by an earlier segment (only used by
    the first, overwritten, index). *)
Definition segmentGenerator (src : bytes) (m : media) (c : ctx) (ref0 : Z) : option (bytes * ctx) :=
  if len src <? 1 then None
  else match m with
  | NO_TYPE => None
  | _ =>
      let pos := len write_styp + len (write_sidx c ref0) in
      let c := addPos c pos pos in
      let '(moof, c) := write_moof m c in
      let reference_size := len moof + 8 + len src in
      Some (write_styp ++ write_sidx c reference_size ++ moof ++ write_mdat src, c)
  end.
